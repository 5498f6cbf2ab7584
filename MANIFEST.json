{
 "claims": [
  {
   "property": "C01",
   "status": "partial",
   "theorems": [
    "C01_topology_indexes_agree_partial",
    "C01_sector_index_sound_unless_site_with_sectors_removed",
    "C01_sector_index_refuted"
   ],
   "note": "Neighbour indexes, table closure and completeness of the sector index proved for all histories. The converse for the sector index is false: remove_site never clears its entry (C01_sector_index_refuted); it is proved for histories that remove no site holding sectors."
  },
  {
   "property": "C02",
   "status": "partial",
   "theorems": [
    "C02_remove_site_exact_partial",
    "C02_remove_site_succeeds_iff",
    "C02_demand_membership_refuted",
    "C02_self_link_refuted"
   ],
   "note": "Sites, links and sectors proved exact; success characterised. False parts: demand sites keep the removed site, and a self-link makes removal raise."
  },
  {
   "property": "C03",
   "status": "partial",
   "theorems": [
    "C03_remove_readd_remove_partial",
    "C03_remove_readd_remove_refuted"
   ],
   "note": "Proved for sites without sectors; for every site with sectors the second removal is proved to raise KeyError."
  },
  {
   "property": "C04",
   "status": "partial",
   "theorems": [
    "C04_link_ids_identify_ends",
    "C04_stored_links_identified_by_ends",
    "C04_get_link_by_site_ids_exact",
    "C04_get_reverse_link_exact",
    "C04_get_link_by_sector_ids_refuted"
   ],
   "note": "Proved, plus a refutation for get_link_by_sector_ids, which ignores the sectors a link uses."
  },
  {
   "property": "C05",
   "status": "partial",
   "theorems": [
    "C05_successors_exact",
    "C05_predecessors_exact",
    "C05_wireless_successors_exact",
    "C05_wireless_predecessors_exact_partial",
    "C05_wireless_predecessors_refuted"
   ],
   "note": "Proved except get_wireless_predecessor_sites, which looks up the link in the wrong direction (refuted); exact when links are symmetric."
  },
  {
   "property": "C06",
   "status": "proved",
   "theorems": [
    "C06_site_immutable_status_kept",
    "C06_sector_immutable_status_kept",
    "C06_link_immutable_status_kept"
   ],
   "note": "Proved for all assignment histories."
  },
  {
   "property": "C07",
   "status": "partial",
   "theorems": [
    "C07_active_link_joins_active_sites_partial",
    "C07_existing_link_joins_existing_sites",
    "C07_demoted_site_refuted",
    "C07_inactive_sector_refuted",
    "C07_existing_sector_on_candidate_site_refuted"
   ],
   "note": "False in general (three refutations); proved for histories without demotion of an active site, and for EXISTING links always."
  },
  {
   "property": "C08",
   "status": "proved",
   "theorems": [
    "C08_every_built_topology_is_well_formed",
    "C08_hops_are_shortest_distances",
    "C08_reachable_demand_exact"
   ],
   "note": "Hop counts equal shortest directed distances, termination and absence of lookup errors included; reachable demand exact."
  },
  {
   "property": "C09",
   "status": "partial",
   "theorems": [
    "C09_marks_exactly_partial",
    "C09_returns_iff_markable",
    "C09_fails_half_way_refuted",
    "C09_zero_hop_limit_refuted"
   ],
   "note": "On normal return the marking is exact; it returns normally iff no immutable status is in the way. Refuted: otherwise it raises half way, and a hop limit of 0 means no limit."
  },
  {
   "property": "C10",
   "status": "proved",
   "theorems": [
    "C10_angle_delta_is_signed_difference",
    "C10_signed_difference_is_unique",
    "C10_range_is_necessary",
    "C10_antisymmetric_except_180"
   ],
   "note": "Exact rationals; rounding of one float subtraction is not modelled."
  },
  {
   "property": "C11",
   "status": "proved",
   "theorems": [
    "C11_every_point_has_a_valid_zone",
    "C11_longitude_lies_in_its_band",
    "C11_date_line_wraps_to_zone_1"
   ],
   "note": "Proved on exact rationals."
  },
  {
   "property": "C12",
   "status": "proved",
   "theorems": [
    "C12_geohash_names_the_containing_cell",
    "C12_cells_of_distinct_hashes_are_disjoint",
    "C12_hash_iff_in_cell",
    "C12_same_hash_iff_same_cell",
    "C12_points_outside_are_rejected"
   ],
   "note": "Proved; rationals are exact here because all cell borders are representable."
  },
  {
   "property": "C13",
   "status": "partial",
   "theorems": [
    "C13_mcs_is_highest_supported",
    "C13_highest_supported_is_unique",
    "C13_monotone_in_snr",
    "C13_lookups_are_inverse",
    "C13_class_reached_iff_threshold_reached",
    "C13_equal_thresholds_refuted"
   ],
   "note": "Proved for tables with distinct classes; the inverse lookups need strictly increasing thresholds. Refuted for equal thresholds, which the loader accepts: the looked-up threshold of the lower class is 0."
  },
  {
   "property": "C14",
   "status": "partial",
   "theorems": [
    "C14_max_power_within_device_maximum",
    "C14_max_power_within_eirp_partial",
    "C14_minimum_overrides_eirp_refuted",
    "C14_max_power_is_the_largest_allowed",
    "C14_max_power_at_least_minimum",
    "C14_adjusted_power_within_limits",
    "C14_adjustment_terminates",
    "C14_budget_power_within_limits_partial",
    "C14_class_0_below_minimum_refuted"
   ],
   "note": "Device maximum, backoff and minimum proved. The EIRP cap holds only if the minimum power respects it; refuted otherwise. The power of a class-0 link budget can be below the minimum (refuted)."
  },
  {
   "property": "C15",
   "status": "partial",
   "theorems": [
    "C15_prune_loops_partial",
    "C15_small_cycles_remain_refuted",
    "C15_self_loop_would_become_negative"
   ],
   "note": "Termination, net flow and bounds proved; acyclicity for flows above epsilon. Refuted: cycles of flow at most epsilon stay. Self-links, excluded by the setup, would become negative."
  },
  {
   "property": "C16",
   "status": "proved",
   "theorems": [
    "C16_planned_sites_have_one_polarity",
    "C16_planned_links_join_opposite_polarities",
    "C16_used_links_join_opposite_polarities"
   ],
   "note": "Proved for the solver models and for the plans read from their answers. The interference model is not covered."
  },
  {
   "property": "C17",
   "status": "proved",
   "theorems": [
    "C17_sector_time_shares",
    "C17_flow_within_capacity_times_share",
    "C17_sector_throughput"
   ],
   "note": "Site selection models. The sector is active exactly when its site is selected."
  },
  {
   "property": "C18",
   "status": "proved",
   "theorems": [
    "C18_supply_equals_served_demand",
    "C18_sites_pass_on_what_they_receive",
    "C18_consumers_receive_demand_minus_shortage",
    "C18_pop_load_within_capacity"
   ],
   "note": "Site selection models; names of sites and consumers assumed distinct."
  },
  {
   "property": "C19",
   "status": "proved",
   "theorems": [
    "C19_colocated_sites_exclude_each_other",
    "C19_location_in_use_is_kept",
    "C19_lone_site_in_use_is_kept",
    "C19_ruled_out_sites_are_not_selected"
   ],
   "note": "Site selection models. A POP that is unavailable is not forced off when POPs are always active."
  },
  {
   "property": "C20",
   "status": "proved",
   "theorems": [
    "C20_search_terminates",
    "C20_answer_has_no_capacity",
    "C20_answer_is_least",
    "C20_none_iff_capacity_at_upper_bound",
    "C20_link_budgets_qualify"
   ],
   "note": "For any capacity function; C20_link_budgets_qualify instantiates it with the link budget model when the net gain falls with distance (net gain itself is an oracle)."
  },
  {
   "property": "C21",
   "status": "proved",
   "theorems": [
    "C21_ranges_of_device_pairs",
    "C21_succeeds_if_every_range_exists",
    "C21_symmetric_between_dns",
    "C21_within_the_bound",
    "C21_one_way_range_covers_capacity"
   ],
   "note": "Device lists with distinct SKUs (checked by LOSParams)."
  },
  {
   "property": "C22",
   "status": "proved",
   "theorems": [
    "C22_batches_give_the_direct_answer",
    "C22_batches_split_the_candidates",
    "C22_links_found"
   ],
   "note": "Pool.map is modelled as workers writing their slot in any order of completion; compute_confidence is an oracle assumed symmetric and positional (see C28)."
  },
  {
   "property": "C23",
   "status": "partial",
   "theorems": [
    "C23_one_site_per_building",
    "C23_sees_most_at_the_time_partial",
    "C23_sees_most_refuted",
    "C23_computed_graph"
   ],
   "note": "pick_best_sites_per_building and the neighbour lists of core.py modelled as is. The site chosen sees most sites at the time of the choice only: the CNs of buildings handled earlier are counted, so the claim about the computed graph is refuted. Links of building sites must go both ways, which holds for computed links (C23_computed_graph)."
  },
  {
   "property": "C24",
   "status": "proved",
   "theorems": [
    "C24_matches_reachability",
    "C24_every_site_once"
   ],
   "note": "Breadth first search modelled with a queue; fuel shown sufficient."
  },
  {
   "property": "C25",
   "status": "proved",
   "theorems": [
    "C25_new_connectable_and_useful",
    "C25_covers_what_one_more_hop_reaches",
    "C25_selects_dns"
   ],
   "note": "Set enumeration order is arbitrary. Also proved: every unreached CN seen by a site one hop from a connected one is covered. Not claimed: CNs further away are covered, since each is tried three times only."
  },
  {
   "property": "C26",
   "status": "partial",
   "theorems": [
    "C26_los_links_in_topology_partial",
    "C26_base_site_refuted",
    "C26_unavailable_site_refuted"
   ],
   "note": "Proved for lines of sight between sites that are not already in the base topology and are not marked unavailable: every one within the limits is in the topology built, the only links besides those of the base topology, which are all kept. Refuted otherwise: a picked site already in the base topology is left out of the site map, so its lines of sight to other sites get no link; one line of sight to a site the user listed as unavailable makes the Link constructor raise and no topology is built. Distances and elevation angles are parameters; the confidence stored on the link is not modelled."
  },
  {
   "property": "C27",
   "status": "partial",
   "theorems": [
    "C27_unusable_pair",
    "C27_no_surface",
    "C27_cylinder_threshold",
    "C27_ellipsoid_range",
    "C27_ellipsoid_level",
    "C27_ellipsoid_threshold_partial",
    "C27_ellipsoid_threshold_refuted"
   ],
   "note": "Proved for the checks, for links without surface data, for the cylinder, for level links with the ellipsoid, and for other links whose surroundings have no cell in a blind spot of the ellipsoid (in the inner zone below the line, and at an end or off the ellipse on the map). Refuted in general: on a steep link a cell at an end gives a positive confidence below the threshold. Exact reals instead of floats; shapely's intersection test is a parameter."
  },
  {
   "property": "C28",
   "status": "proved",
   "theorems": [
    "C28_cylinder",
    "C28_ellipsoid"
   ],
   "note": "Proved for both models, as equality of the results including failures, provided the intersection test of exclusion zones does not depend on the direction of the line."
  },
  {
   "property": "C29",
   "status": "partial",
   "theorems": [
    "C29_both_or_none_partial",
    "C29_links_back_agree",
    "C29_sectors_stay",
    "C29_channels",
    "C29_covers_own_direction_refuted"
   ],
   "note": "add_sectors_to_links and validate_link_sectors over exact rational angles, bearing_in_degrees an oracle. Both sectors or none, on the end sites, covering the direction with minimal deviation, for links assigned directly; a link assigned through the link back gets sectors that are right for the link back only, and need not cover its own direction (refuted with a witness: rx_beam_azimuth is tx+180 instead of the bearing back)."
  },
  {
   "property": "C30",
   "status": "partial",
   "theorems": [
    "C30_deduplicated",
    "C30_rejected",
    "C30_copies_unique",
    "C30_uniquely_named_partial",
    "C30_unnamed_is_called_by_id",
    "C30_found_by_name",
    "C30_uniquely_named_refuted",
    "C30_found_by_id",
    "C30_found_by_own_id_refuted",
    "C30_copy_ignored",
    "C30_retry_is_ignored"
   ],
   "note": "Loading, rejection, lookups by name and id and the renaming rule are proved for all inputs; unique names are proved when no name equals another's name with the device appended (partial), and refuted otherwise (two sites named A_x). Ids can be shared by two names, and a rejected site is silently ignored on retry: both proved."
  },
  {
   "property": "C31",
   "status": "partial",
   "theorems": [
    "C31_text_recovered",
    "C31_text_opens_no_tag",
    "C31_file_round_trip",
    "C31_written_iff",
    "C31_topology_name_refuted",
    "C31_control_characters_refuted",
    "C31_confidence_refuted",
    "C31_building_refuted"
   ],
   "note": "Round trip of a topology through write_to_kml_file and extract_raw_data_from_kml_file for every topology with XML-readable names and a name of the topology without < or &. Refuted: a topology name with markup makes the file unreadable, control characters are lost, and confidence levels and building ids do not survive. The GDAL LIBKML driver is modelled (xml_text, layers, launder, read_mark); float formatting is an oracle."
  },
  {
   "property": "C32",
   "status": "proved",
   "theorems": [
    "C32_accepted_table_is_consistent",
    "C32_ascending_rows_are_accepted",
    "C32_descending_without_backoff_is_rejected"
   ],
   "note": "Proved from the raw csv lines on. Also shown: ascending tables are accepted, descending ones with equal values in a column are not."
  },
  {
   "property": "C33",
   "status": "partial",
   "theorems": [
    "C33_availability_is_a_share",
    "C33_any_graph",
    "C33_shares_are_unique",
    "C33_perfect_links",
    "C33_bad_arguments",
    "C33_one_way_link",
    "C33_no_source",
    "C33_zero_availability_refuted",
    "C33_time_limit_refuted"
   ],
   "note": "compute_availability in full: for every drawn sequence and wherever the time limit strikes, availability is exactly the share of the simulated time during which the demand is connected (link works); keys exact; values in [0,1]; all error cases. Refuted: availability 0 is accepted but raises; link availability is not rescaled at the time limit. Times are exact rationals; drawn numbers are an oracle."
  },
  {
   "property": "C34",
   "status": "partial",
   "theorems": [
    "C34_capex_exact_partial",
    "C34_capex_exact_after_completion",
    "C34_capex_never_more",
    "C34_proposed_capex_never_more",
    "C34_capex_refuted"
   ],
   "note": "Exact when the sectors of each node agree, which holds after _set_sector_status_in_same_node; never more than the expenditure. Refuted in general: only the first sector seen of a node decides (C34_capex_refuted)."
  },
  {
   "property": "C35",
   "status": "partial",
   "theorems": [
    "C35_angle_pairs_exact",
    "C35_angle_check_returns",
    "C35_angle_check_missing_sector_refuted",
    "C35_link_ids_exact",
    "C35_sector_limits_exact",
    "C35_listed_receivers_active_refuted"
   ],
   "note": "Angle and near-far pairs exact (sorted, no duplicates), for active links and for all links; the check returns exactly when every pair of links of a site can be measured and sectors are known. Sector limits exact. Refuted: the check raises on an active link without sectors, and the receivers listed for an overloaded sector include ends of inactive links. Angles and length ratios come from an oracle that is symmetric in the two far sites."
  },
  {
   "property": "C36",
   "status": "partial",
   "theorems": [
    "C36_demand_generation",
    "C36_demand_generation_returns",
    "C36_connect_colocated",
    "C36_connect_colocated_returns",
    "C36_grid_reaching_180_never_returns",
    "C36_manual_demand_connections_refuted"
   ],
   "note": "Ids, positions, demand, numbers and connections of all demand sites after generation, for every mix of the three demand models, with termination; the growing-list loop is proved to compute the closure. Proved under 'roomy': the grid does not reach beyond 180 degrees; if it does, the loop is proved never to return. Refuted: a manual demand site with a CN at its position loses its connections and number when CN demand is enabled. Distances, hash ids (assumed injective) and grid_deltas are oracles; coordinates exact."
  },
  {
   "property": "C37",
   "status": "proved",
   "theorems": [
    "C37_index_of_nearest_cell",
    "C37_index_within_half_a_cell",
    "C37_index_of_cell_centre",
    "C37_obstructions",
    "C37_elevation_of_nearest_cell"
   ],
   "note": "Coordinates are exact reals. The obstruction search clips the box to the area of interest first, so the theorem is about cells with centres in both. Uses the axioms of Coq's Reals."
  },
  {
   "property": "C38",
   "status": "partial",
   "theorems": [
    "C38_cn_polarities",
    "C38_polarity_filter",
    "C38_polarity_symmetric",
    "C38_channel_filter",
    "C38_channel_symmetric",
    "C38_interferers_exact",
    "C38_sinr_exact",
    "C38_sinr_at_most_snr",
    "C38_returns_when_cns_served",
    "C38_never_raises_refuted"
   ],
   "note": "The model covers the CN polarity table, both filters, the whole net-gain map, the interference sums and the resulting SINR; gains, powers and logarithms are oracles. 'Never raises' is refuted: an active CN without an active incoming link raises KeyError; proved to return whenever every active CN is served."
  },
  {
   "property": "C39",
   "status": "partial",
   "theorems": [
    "C39_returns_iff_fits",
    "C39_applied_exactly",
    "C39_consistent",
    "C39_connected_partial",
    "C39_connected_refuted",
    "C39_link_without_sectors_refuted",
    "C39_channels_exact"
   ],
   "note": "Sites, sectors and links (statuses, polarities, channels) after applying a solution: when it returns, the exact result, active links and sectors have active sites, proposed sites with a sector are connected. The connection claim is false for sites without a sector (C39_connected_refuted), and a proposed link between disconnected existing sites keeps its status while its sectors lose theirs (C39_link_without_sectors_refuted). existing_supported is what C07 keeps of links."
  },
  {
   "property": "C40",
   "status": "partial",
   "theorems": [
    "C40_graph_exact",
    "C40_graph_costs",
    "C40_connected_demands",
    "C40_no_pop_raises",
    "C40_link_failures",
    "C40_site_failures",
    "C40_disjoint_exact",
    "C40_disjoint_two_paths",
    "C40_disjoint_finds_all_refuted",
    "C40_pop_demand",
    "C40_failures_after_disjoint",
    "C40_graph_restored_refuted",
    "C40_routing",
    "C40_disruptive_links",
    "C40_disruptive_returns",
    "C40_disruptive_at_most_count_refuted",
    "C40_disruptive_one_way_refuted"
   ],
   "note": "Exact results for the demand graph, connected demand, link and site failures, disjoint paths, routing and the most disruptive links, for every topology that the operations can reach. networkx is modelled as a dictionary of dictionaries; the choice among shortest paths is an oracle assumed to return paths (a breadth-first search that meets the assumption is given). Refuted parts: disjoint_paths puts links back without their type, so a later single_edge_failures counts wired links; it can miss a demand with two link-disjoint paths; the disruptive links can be one more than asked for; a one-way link raises KeyError."
  },
  {
   "property": "C41",
   "status": "partial",
   "theorems": [
    "C41_sector_accepted_iff_in_range",
    "C41_sector_refused_with_configuration_error",
    "C41_sector_keeps_the_given_values",
    "C41_device_accepted_iff_in_range",
    "C41_device_refused_with_configuration_error",
    "C41_device_keeps_the_given_values",
    "C41_los_accepted_iff_in_range",
    "C41_los_refused_with_configuration_error",
    "C41_los_keeps_the_given_values",
    "C41_optimizer_accepted_iff_in_range",
    "C41_optimizer_refused_with_planner_error",
    "C41_optimizer_keeps_the_given_values",
    "C41_files_give_checked_radio_parameters",
    "C41_unknown_fields_are_reported",
    "C41_accepted_files_have_known_fields_only",
    "C41_accepted_fields_are_used_refuted",
    "C41_accepted_sections_are_used_refuted",
    "C41_optimizer_survives_a_dictionary",
    "C41_los_survives_a_dictionary",
    "C41_pattern_files_refuted",
    "C41_null_distance_refuted",
    "C41_equal_to_itself",
    "C41_equal_objects_agree_partial",
    "C41_equal_optimizers_agree_refuted",
    "C41_equal_devices_agree_refuted",
    "C41_equality_is_symmetric_refuted",
    "C41_zero_scan_range_refuted",
    "C41_time_limits_are_positive_refuted",
    "C41_project_parameters_are_checked_refuted",
    "C41_dictionaries_give_checked_radio_parameters_refuted",
    "C41_accepted_never_breaks_arithmetic_refuted",
    "C41_enum_names_in_any_case",
    "C41_unknown_enum_names_refused"
   ],
   "note": "Validation of the four parameter classes, defaults, unknown and misspelt fields, enum names in any case, conversion to a dictionary and back. Refuted: accepted values can still make later arithmetic fail; equality ignores the length of lists."
  },
  {
   "property": "C42",
   "status": "partial",
   "theorems": [
    "C42_best_placement_partial",
    "C42_best_placement_channels_refuted"
   ],
   "note": "find_best_sectors: full optimality when no two links are forced together or apart (as in the preparation of the topology); with channels it may return nothing although a node sees every link on the right sectors. Bearings and distances are inputs; floats exact."
  },
  {
   "property": "C43",
   "status": "proved",
   "theorems": [
    "C43_sort_keeps_content_and_orders",
    "C43_sort_independent_of_insertion_order"
   ],
   "note": ""
  },
  {
   "property": "C44",
   "status": "proved",
   "theorems": [
    "C44_remove_sector_exact",
    "C44_sector_ids_identify_sectors"
   ],
   "note": ""
  },
  {
   "property": "C45",
   "status": "proved",
   "theorems": [
    "C45_get_site_ids_exact",
    "C45_get_link_pairs_exact",
    "C45_get_sectorless_links_exact",
    "C45_colocated_groups_partition",
    "C45_get_sector_ids_exact",
    "C45_get_site_polarities_exact",
    "C45_sector_connectivity_exact"
   ],
   "note": ""
  },
  {
   "property": "C46",
   "status": "proved",
   "theorems": [
    "C46_link_between_unavailable_and_unreachable_always_raises"
   ],
   "note": ""
  },
  {
   "property": "C47",
   "status": "partial",
   "theorems": [
    "C47_reads_are_stable",
    "C47_copy_with_altitude_keeps_position_partial",
    "C47_copy_override_refuted"
   ],
   "note": "Reads proved stable under every history; copy with an altitude proved for fresh locations. Refuted: after the latitude of a UTM location was read, copy(utm_x=...) ignores the override."
  },
  {
   "property": "C48",
   "status": "partial",
   "theorems": [
    "C48_capacity_is_that_of_best_closing_class_partial",
    "C48_missing_class_loses_capacity_refuted",
    "C48_class_0_row_gives_capacity_to_dead_links_refuted",
    "C48_accepted_table_can_be_empty_refuted"
   ],
   "note": "Proved for tables without gaps, without class 0 and with strictly increasing thresholds. Refuted without these: a missing class loses capacity, a class-0 row gives capacity to dead links, and the accepted table can be empty."
  },
  {
   "property": "C49",
   "status": "partial",
   "theorems": [
    "C49_capacity_monotone_partial",
    "C49_missing_class_refuted"
   ],
   "note": "Proved for the same tables as C48; refuted with a missing class."
  },
  {
   "property": "C50",
   "status": "proved",
   "theorems": [
    "C50_planned_sites_were_selected",
    "C50_planned_links_have_what_they_need",
    "C50_flow_only_on_planned_links",
    "C50_planned_sites_are_used",
    "C50_sectors_follow_their_links",
    "C50_planned_flow_is_acyclic",
    "C50_planned_flow_is_conserved",
    "C50_consumers_receive_demand_minus_shortage",
    "C50_reading_a_plan_succeeds"
   ],
   "note": "The solver is an oracle: the theorems hold for every feasible assignment in exact arithmetic. Hypothesis sectors_present: sectors named by links are in the topology."
  },
  {
   "property": "C51",
   "status": "proved",
   "theorems": [
    "C51_cost_is_the_price_of_the_plan",
    "C51_plan_within_budget"
   ],
   "note": "As C50."
  },
  {
   "property": "C52",
   "status": "proved",
   "theorems": [
    "C52_shortage_within_coverage",
    "C52_delivered_flow_reaches_coverage"
   ],
   "note": "As C50; the variant with maximize_common_bandwidth is not modelled."
  },
  {
   "property": "C53",
   "status": "proved",
   "theorems": [
    "C53_flow_is_always_reported",
    "C53_link_flow_within_capacity_times_share",
    "C53_only_links_of_the_plan_carry_flow",
    "C53_only_sites_of_the_plan_carry_flow",
    "C53_sector_time_shares",
    "C53_sites_pass_on_what_they_receive",
    "C53_connected_consumers_all_receive_the_buffer",
    "C53_supply_is_buffer_times_connected_consumers",
    "C53_pop_load_within_capacity",
    "C53_reported_flow_is_acyclic"
   ],
   "note": "Over every feasible assignment of the MaxFlow linear program and the flow extracted from it. C53_sector_time_shares also records that an EXISTING (not PROPOSED) sector gets no airtime in this model."
  },
  {
   "property": "C54",
   "status": "partial",
   "theorems": [
    "C54_window_points",
    "C54_window_matrix_partial",
    "C54_window_matrix_refuted"
   ],
   "note": "The list query is proved for every window, the matrix query for windows that reach less than one cell over the edges. Refuted: a window one cell or more over the left or upper edge gives negative slice bounds, which Python counts from the end, so cells of the window are missing. Elevations without data are not covered."
  },
  {
   "property": "C55",
   "status": "proved",
   "theorems": [
    "C55_resampled_from_nearest_cells"
   ],
   "note": "Proved for rasters without missing cells."
  },
  {
   "property": "C56",
   "status": "partial",
   "theorems": [
    "C56_cylinder_clear",
    "C56_level_zone_clear_partial",
    "C56_steep_zone_refuted"
   ],
   "note": "Proved for the cylinder and for level links with the ellipsoid; refuted for steep links with the ellipsoid, where a wall reaches into the zone said to be clear."
  },
  {
   "property": "C57",
   "status": "partial",
   "theorems": [
    "C57_assigning_succeeds_partial",
    "C57_assigning_succeeds_refuted"
   ],
   "note": "Proved when bearings there and back are exactly opposite; refuted otherwise: the pair just chosen for a link is validated against the bearing back and raises OptimizerException at the edge of the scan range."
  },
  {
   "property": "C58",
   "status": "partial",
   "theorems": [
    "C58_placing_succeeds_partial",
    "C58_placing_succeeds_refuted",
    "C58_placing_fails"
   ],
   "note": "Exact condition proved when no link limits are given; false for e.g. 9 nodes of 40 degrees. Link limits not covered."
  },
  {
   "property": "C59",
   "status": "partial",
   "theorems": [
    "C59_client_direction_partial",
    "C59_client_direction_succeeds",
    "C59_client_direction_refuted"
   ],
   "note": "One node per client site, as DeviceData requires. Optimal unless a link is within half the node's angle of north; refuted there."
  },
  {
   "property": "C60",
   "status": "partial",
   "theorems": [
    "C60_sites_of_an_entry",
    "C60_sites_of_a_file",
    "C60_entry_kept_refuted"
   ],
   "note": "Proved, except that an entry without a device for which no device suits is dropped silently (refuted)."
  },
  {
   "property": "C61",
   "status": "proved",
   "theorems": [
    "C61_pop_capacity_is_the_maximum"
   ],
   "note": "The reported value is the maximum over all time shares of the links. Link capacities are a function of the link id."
  },
  {
   "property": "C62",
   "status": "proved",
   "theorems": [
    "C62_removed_exactly"
   ],
   "note": "The set of removed sites, for every topology."
  },
  {
   "property": "C63",
   "status": "proved",
   "theorems": [
    "C63_returns_iff",
    "C63_nodes_completed"
   ],
   "note": "When the adjustment returns and the exact result."
  },
  {
   "property": "C64",
   "status": "proved",
   "theorems": [
    "C64_site_counts_exact",
    "C64_sector_counts_exact",
    "C64_link_counts_exact",
    "C64_backup_exact",
    "C64_channel_occupancy_exact",
    "C64_report_returns"
   ],
   "note": "All fields of the report. Geohash, device SKU and sector channel are oracles; the geohash contains no dash. The report fails exactly when the two sectors of an active radio link are on different channels."
  },
  {
   "property": "C65",
   "status": "partial",
   "theorems": [
    "C65_adversarial_links",
    "C65_returns",
    "C65_always_returns_refuted"
   ],
   "note": "Proved for every reachable topology, with exact arithmetic for the number of links. Refuted without the requirement that links of the plan have capacity: a critical active link of zero capacity makes the function raise NetworkXError."
  },
  {
   "property": "C66",
   "status": "proved",
   "theorems": [
    "C66_longer_links_are_never_stronger",
    "C66_net_gain_accounts_for_every_loss",
    "C66_rain_loss_grows_with_distance",
    "C66_free_space_loss_grows_with_distance",
    "C66_free_space_formula",
    "C66_oxygen_loss_grows_with_distance",
    "C66_oxygen_loss_interpolates_the_table",
    "C66_oxygen_loss_is_at_most_15_db_per_km"
   ],
   "note": "over exact reals; antenna gains are parameters; frequencies from 10 GHz, rain 0 or >= 1 mm/h, availability < 100; the range d <= 10 km is the planner's own search bound"
  },
  {
   "property": "C67",
   "status": "partial",
   "theorems": [
    "C67_rain_loss_is_the_published_formula",
    "C67_no_loss_without_rain",
    "C67_heavier_rain_never_loses_less",
    "C67_higher_availability_never_loses_less_partial",
    "C67_higher_availability_never_loses_less_refuted",
    "C67_full_availability_refuted"
   ],
   "note": "proved up to 99.999 percent availability; refuted beyond (the fitted curve turns around) and at 100 percent (accepted by the configuration, ValueError from the logarithm)"
  },
  {
   "property": "C68",
   "status": "partial",
   "theorems": [
    "C68_one_folder_each",
    "C68_sites_by_name",
    "C68_most_used_link_first",
    "C68_styles_defined_partial",
    "C68_styles_defined_refuted"
   ],
   "note": "Layout of the KML file. Styles are defined only if no POP is UNREACHABLE, links used over 80 % are deployed and no demand is negative (refuted otherwise)."
  },
  {
   "property": "C69",
   "status": "partial",
   "theorems": [
    "C69_links_of_the_file",
    "C69_loaded_iff",
    "C69_errors",
    "C69_no_sites_refuted",
    "C69_both_directions",
    "C69_order_irrelevant",
    "C69_drawing_ignored",
    "C69_drawn_link_refuted",
    "C69_self_link_refuted",
    "C69_reloaded",
    "C69_links_of_the_csv_file",
    "C69_csv_pairs",
    "C69_csv_two_sites",
    "C69_csv_cells"
   ],
   "note": "Exact content and acceptance of loaded links for KML and CSV; order independence; reload of a written topology. Refuted: KML links without site names are refused although a nearest-site search exists (names are never None, so that search is dead code); links from a site to itself are loaded; a file with links but no sites fails an assertion instead of raising a data error. KD-tree and projection are oracles."
  },
  {
   "property": "C70",
   "status": "partial",
   "theorems": [
    "C70_outcome",
    "C70_accepted_iff",
    "C70_two_way_links",
    "C70_accepted_suits_refuted",
    "C70_wired_link",
    "C70_consistent_accepted_refuted"
   ],
   "note": "The accepted topologies are characterised exactly. Refuted: links to clients have no reverse and are never checked, so a proposed link to a candidate client is accepted; a deployed wired link has no sectors and is always refused, so a consistent wired network is refused."
  },
  {
   "property": "C71",
   "status": "partial",
   "theorems": [
    "C71_outcome",
    "C71_class_of_sinr",
    "C71_power_within_limits",
    "C71_wired",
    "C71_settled_power_is_least",
    "C71_backoff_respected_refuted",
    "C71_silent_for_good",
    "C71_stable_for_good",
    "C71_stops_when_stable",
    "C71_first_round_stable",
    "C71_silent_links_unusable_refuted",
    "C71_unbuilt_links",
    "C71_unbuilt_capacity_refuted"
   ],
   "note": "Interference is an arbitrary function of all powers (its computation is C38). Floats are exact rationals with infinities and NaN. Refuted: with a smallest power the final class may need a backoff the power exceeds; a link that falls silent never comes back, so links that drown each other all end silent although each would work; links that are not built may be given more capacity than any permitted power gives."
  },
  {
   "property": "C72",
   "status": "partial",
   "theorems": [
    "C72_link_statistics",
    "C72_values_of_a_link",
    "C72_values_are_of_the_plan",
    "C72_one_value_per_link_refuted",
    "C72_utilization_summary",
    "C72_site_flows",
    "C72_site_balance",
    "C72_redundant_links",
    "C72_flags_follow_routes_refuted"
   ],
   "note": "Proved: per-link statistics, number of utilization values per physical link, utilization summary, site flows and their balance with the extracted flow, redundancy marks. Refuted: one value per physical link (a loop below the pruning threshold of the flow solution leaves an entry for each direction) and marks reflecting the latest routes (get_routing_topology never resets is_redundant). Decimal rounding of printed numbers is not modelled."
  },
  {
   "property": "C73",
   "status": "partial",
   "theorems": [
    "C73_report_returns",
    "C73_report_with_wired_links_refuted",
    "C73_counts",
    "C73_links_per_sector",
    "C73_lengths_and_classes",
    "C73_failures",
    "C73_demand",
    "C73_flow",
    "C73_availability"
   ],
   "note": "Proved: exactly when the metrics are produced, and what each figure is. Refuted: metrics are produced with wired links in the plan (none_throws on the sectors of a link before its type is looked at). MCS counts are exact when both directions of a link have the same class; otherwise the class of the direction stored last is counted. Failure tables are assumed to be keyed by active POPs and DNs, as disjoint_paths builds them."
  },
  {
   "property": "C74",
   "status": "partial",
   "theorems": [
    "C74_accepted_sectors",
    "C74_accepted_or_refused",
    "C74_one_sector_per_node",
    "C74_placed_sectors_accepted_partial",
    "C74_placed_sectors_accepted_refuted",
    "C74_mean_is_the_centre"
   ],
   "note": "Soundness of acceptance for any circular mean; exact for one sector per node; sectors placed by find_best_sectors are accepted for at most two sectors per node or when no node passes north. Refuted in general: the two halves are sorted as numbers (lines 421, 427), so a node of four sectors with north inside one half is refused with OptimizerException although the planner placed it. The circular mean is an oracle; C74_mean_is_the_centre shows over the reals that it is the centre of the node. Azimuths are exact rationals."
  },
  {
   "property": "C75",
   "status": "proved",
   "theorems": [
    "C75_plan_withstands_failures_within_its_margin",
    "C75_levels_keep_their_promise",
    "C75_first_solve_is_never_infeasible",
    "C75_second_solve_accepts_the_first_answer",
    "C75_every_answer_can_be_read",
    "C75_planned_links_have_what_they_need",
    "C75_active_pops_and_dns_stay",
    "C75_only_candidate_dns_are_added",
    "C75_cns_give_way_only_to_pops_and_dns",
    "C75_planned_links_join_opposite_polarities",
    "C75_step_fails_exactly_for_cut_off_dns"
   ],
   "note": "Exact solutions of the second problem; floats are rationals and the solver, the heuristic that restricts the links and the objectives are not modelled (the restriction is an arbitrary set). The claim on CNs needs a positive POP capacity, the one on polarities needs every active link to be within the restriction. Finding: a DN in service without a usable backhaul link makes the whole step raise (C75_step_fails_exactly_for_cut_off_dns, C75_cut_off_example)."
  },
  {
   "property": "C76",
   "status": "partial",
   "theorems": [
    "C76_access_network",
    "C76_number_of_pops",
    "C76_input_pops_are_kept",
    "C76_number_of_new_pops_partial",
    "C76_one_site_per_place",
    "C76_sites_in_use_are_chosen",
    "C76_sites_in_use_limit",
    "C76_fails_exactly_on_existing_pops",
    "C76_existing_pop_refuted",
    "C76_more_than_asked_for_refuted",
    "C76_no_answer_beside_sites_in_use_refuted",
    "C76_no_answer_for_shared_places_refuted"
   ],
   "note": "Refuted parts: (1) an EXISTING input POP makes the proposal raise, because its status is set to PROPOSED; (2) two input POPs of different devices at one place count twice, so more new POPs than asked for are chosen; (3) more DNs in use than extra POPs, or DNs of different devices at one place, leave the equality constraint without an answer although POPs could be added (the planner then only logs a warning). The count theorem for new POPs needs input POPs at different places. Rests on functional extensionality."
  },
  {
   "property": "C77",
   "status": "partial",
   "theorems": [
    "C77_topology_with_the_new_pops_partial",
    "C77_copies_of_wireless_links",
    "C77_new_pops_can_be_added",
    "C77_unavailable_neighbour_refuted",
    "C77_receiving_only_refuted",
    "C77_wireless_link_copied_as_wired_refuted"
   ],
   "note": "Exact result of the call, with the kind of the copies of incoming links taken from some outgoing link of a chosen DN; faithful for wireless networks; totality under conditions. Refuted in general: a wireless link may be copied as wired, an unavailable neighbour or a DN that only receives makes the call fail."
  },
  {
   "property": "C78",
   "status": "partial",
   "theorems": [
    "C78_problem_is_posed",
    "C78_answer_is_a_choice",
    "C78_budget_answer",
    "C78_pops_answer",
    "C78_cables_have_no_polarity_refuted"
   ],
   "note": "Refuted part: active links are forced to join opposite polarities even when they are cables (network_optimization.py 877-887 does not exempt wired links, while 497-532 does), so an odd cycle of existing cables has no answer. Feasibility under CostUnderCoverage is only given a necessary condition."
  },
  {
   "property": "C79",
   "status": "partial",
   "theorems": [
    "C79_good_plans_are_answers",
    "C79_answers_are_the_good_plans",
    "C79_answers_after_validation",
    "C79_ends_of_active_links_are_kept_refuted"
   ],
   "note": "Both directions proved for all three goals. The last sentence is refuted: only the status of a lone site forces it to be chosen (network_optimization.py 843-876). A comment there relies on the check of statuses for the ends of active links, but that check skips links to clients (C70)."
  },
  {
   "property": "C80",
   "status": "partial",
   "theorems": [
    "C80_used_link",
    "C80_sector_site",
    "C80_one_channel",
    "C80_one_link_per_client",
    "C80_both_directions",
    "C80_polarity",
    "C80_limits",
    "C80_existing_links",
    "C80_ruled_out_links",
    "C80_angle",
    "C80_traffic",
    "C80_airtime",
    "C80_idle",
    "C80_same_node_refuted",
    "C80_same_node_full_refuted"
   ],
   "note": "Refuted for sectors of one node: create_same_node_sector_relationship (network_optimization.py 400-425) tests whether a pair (place, sector) is a key of a dictionary whose keys are triples (place, sector, channel), so the constraint is never generated and one sector of a node can be on while another is off, also with the capacity constraints of C81 added. All other rules are proved for every answer."
  },
  {
   "property": "C81",
   "status": "partial",
   "theorems": [
    "C81_one_channel",
    "C81_rate",
    "C81_airtime_refuted"
   ],
   "note": "The rate is proved for every answer. Refuted for airtime: the traffic is bounded by the rate under interference, and by the airtime times the rate without interference, but not by the airtime times the rate under interference (interference_optimization.py 1047-1052 says so), so a link can carry twice what its airtime allows. Links whose signal strength is exactly 0 are outside the theorem. C81_one_channel: airtime on one channel only, also without traffic."
  },
  {
   "property": "C82",
   "status": "partial",
   "theorems": [
    "C82_readable_partial",
    "C82_links",
    "C82_cables",
    "C82_ends",
    "C82_channels",
    "C82_sector_on",
    "C82_site_on",
    "C82_polarity",
    "C82_airtime",
    "C82_other_links",
    "C82_site_kept",
    "C82_site_off",
    "C82_sector_channel",
    "C82_sector_off",
    "C82_same_node_refuted",
    "C82_readable_refuted"
   ],
   "note": "Proved for every answer of the constraints of C80 that the reader accepts; channel equality for links whose sender is not a client. Two sentences are false: nodes may have one sector on and one off (C82_same_node_refuted), and an answer with airtime on two channels for a wireless link without sectors is rejected with an OptimizerException (C82_readable_refuted, witness for the whole problem with interference). If all wireless links have sectors and capacity and none joins two clients, every answer is read (C82_readable_partial, without a minimum bandwidth)."
  }
 ]
}
