{"id": "C01", "title": "Topology indexes agree with its tables after any history", "statement": "After any sequence of add/remove calls for sites, demand sites, sectors and links that returned normally, the neighbour index, the reverse neighbour index and the sector index of a topology describe exactly the links, sites and sectors stored in it: tx->rx is an index edge with link id k iff a stored link with id k goes from tx to rx, both ends of every stored link are stored sites, every sector belongs to a stored site, and no dangling entry remains.", "quantifier": "all finite sequences of topology API calls with arbitrary arguments, starting from an empty topology", "why_tests_cant": "tests exercise a handful of fixed call sequences; the agreement must hold for every interleaving of adds, removes, overwrites and re-adds", "anchors": ["terragraph_planner/common/topology_models/topology.py: Topology.add_site, remove_site, add_sector, remove_sector, add_link, remove_link"]}
{"id": "C02", "title": "Removing a site removes it, its links and its sectors and nothing else", "statement": "A remove_site call that returns normally deletes the site, every link that starts or ends at it, every sector on it and its membership in every demand site's connected sites; every other site, link, sector and demand site is unchanged, and links that used a deleted sector elsewhere do not survive with it.", "quantifier": "all well-formed topologies and all site ids", "why_tests_cant": "the cascade depends on the shape of the whole graph around the site", "anchors": ["terragraph_planner/common/topology_models/topology.py: Topology.remove_site, remove_sector, remove_link"]}
{"id": "C03", "title": "A removed site can be added again and removed again", "statement": "Removing a site and adding the same site back gives a topology on which a later removal of that site succeeds, as on a fresh topology.", "quantifier": "all call histories containing remove_site(s); add_site(s); remove_site(s)", "why_tests_cant": "unit tests never replay a removal on the same identifier after re-insertion", "anchors": ["terragraph_planner/common/topology_models/topology.py: Topology.remove_site, add_site"]}
{"id": "C04", "title": "Links are identified by their ordered pair of end sites", "statement": "Two links of one topology have the same id iff they have the same transmitting and the same receiving site; get_link_by_site_ids(a, b) returns the stored link from a to b if there is one and nothing otherwise, and get_reverse_link returns the link with swapped ends.", "quantifier": "all topologies reachable through the API and all pairs of hexadecimal site ids", "why_tests_cant": "collision freedom is a statement about all pairs of ids", "anchors": ["terragraph_planner/common/topology_models/link.py: Link.get_link_id_by_site_ids", "terragraph_planner/common/topology_models/topology.py: get_link_by_site_ids, get_reverse_link, add_link"]}
{"id": "C05", "title": "Neighbour queries report exactly the linked sites", "statement": "get_successor_sites(s)/get_predecessor_sites(s) return exactly the sites at the far end of stored links leaving/entering s; the wireless variants return exactly those reached by a wireless link in that direction.", "quantifier": "all topologies reachable through the API and all sites", "why_tests_cant": "direction mistakes are invisible on the symmetric topologies used in tests", "anchors": ["terragraph_planner/common/topology_models/topology.py: get_successor_sites, get_predecessor_sites, get_wireless_successor_sites, get_wireless_predecessor_sites"]}
{"id": "C06", "title": "EXISTING and UNAVAILABLE statuses never change", "statement": "Once a site, sector or link is EXISTING or UNAVAILABLE, no sequence of status assignments changes its status: each assignment either leaves it as is or raises.", "quantifier": "all sequences of status assignments on a site, sector or link, including ones that raise", "why_tests_cant": "quantifies over all assignment histories", "anchors": ["terragraph_planner/common/topology_models/site.py: Site.status_type", "terragraph_planner/common/topology_models/sector.py: Sector.status_type", "terragraph_planner/common/topology_models/link.py: Link.status_type", "terragraph_planner/common/configuration/enums.py: StatusType"]}
{"id": "C07", "title": "An active link always joins active sites and active sectors", "statement": "At every point of a run through the API, a link whose status is active (PROPOSED/EXISTING) has active end sites and, where it has sectors, active sectors.", "quantifier": "all histories of status assignments on sites, sectors and links", "why_tests_cant": "the invariant can be broken from either end, in any order", "anchors": ["terragraph_planner/common/topology_models/link.py: _check_compatible_status", "terragraph_planner/common/topology_models/sector.py: _check_compatible_status_type", "terragraph_planner/common/topology_models/site.py: Site.status_type"]}
{"id": "C08", "title": "Hop counts are shortest distances from the POPs", "statement": "hops_from_pops gives a site the length of a shortest directed path of usable links through usable sites from some POP, and gives no value exactly to the sites no such path reaches; the search terminates on every topology, cyclic or not.", "quantifier": "all finite topologies and all usable site and link sets", "why_tests_cant": "correctness of a graph search over all graphs", "anchors": ["terragraph_planner/optimization/topology_operations.py: hops_from_pops, get_reachable_demand_sites"]}
{"id": "C09", "title": "Unreachable components are marked exactly", "statement": "If mark_unreachable_components returns normally then a site, sector or link that was CANDIDATE and cannot be served from any POP within the hop limit becomes UNREACHABLE, everything reachable keeps its status, and the call never fails half way leaving some components marked.", "quantifier": "all topologies, statuses and hop limits", "why_tests_cant": "exactness over all graphs; the failure case needs a particular mix of statuses", "anchors": ["terragraph_planner/optimization/topology_operations.py: mark_unreachable_components"]}
{"id": "C10", "title": "angle_delta is the signed difference in (-180, 180]", "statement": "For two bearings in [0, 360) (and more generally whenever their difference lies in (-540, 540]) angle_delta returns the unique value in (-180, 180] congruent to the difference modulo 360; it is antisymmetric except at 180.", "quantifier": "all pairs of rational angles in the domain", "why_tests_cant": "continuous domain with boundary cases at the seam", "anchors": ["terragraph_planner/common/geos.py: angle_delta"]}
{"id": "C11", "title": "Every valid latitude/longitude maps to a valid UTM zone", "statement": "For latitude in [-90, 90] and longitude in [-180, 180] the EPSG code computed is one of 32601..32660 (north) or 32701..32760 (south), is always accepted by GeoLocation, and the longitude lies within the six-degree band of its zone (longitude 180 wraps to zone 1).", "quantifier": "all rational latitudes and longitudes in range", "why_tests_cant": "continuous domain with boundary cases", "anchors": ["terragraph_planner/common/geos.py: lat_lon_to_utm_epsg, _longitude_to_utm_zone, GeoLocation"]}
{"id": "C12", "title": "A geohash names the cell that contains the point", "statement": "lat_lon_to_geo_hash yields ten characters of the 32-letter alphabet, decoding them gives a cell of fixed size that contains the point, distinct hashes name disjoint cells, and two points have the same hash iff they are in the same cell.", "quantifier": "all latitudes in [-90, 90] and longitudes in [-180, 180]", "why_tests_cant": "round-trip over a continuous domain", "anchors": ["terragraph_planner/common/geos.py: lat_lon_to_geo_hash"]}
{"id": "C13", "title": "The MCS class chosen is the highest one the SNR supports", "statement": "get_mcs_from_snr returns the highest class of the table whose SNR threshold does not exceed the given SNR and 0 when there is none; it is monotone in the SNR, and get_snr_from_mcs/get_link_capacity_from_mcs/get_backoff_from_mcs are consistent inverses on the table.", "quantifier": "all sorted MCS tables of any length and all SNR values", "why_tests_cant": "arbitrary user-supplied tables", "anchors": ["terragraph_planner/common/rf/link_budget_calculator.py: get_mcs_from_snr, get_snr_from_mcs, get_backoff_from_mcs, get_link_capacity_from_mcs"]}
{"id": "C14", "title": "Transmit power respects the limits", "statement": "The maximum transmit power never exceeds the device maximum, and together with the antenna gain never exceeds the regulatory EIRP cap when one is given; backing off for an MCS class never raises the power and never drops it below the configured minimum.", "quantifier": "all sector parameters, EIRP caps and MCS tables", "why_tests_cant": "interaction of three optional limits over a continuous domain", "anchors": ["terragraph_planner/common/rf/link_budget_calculator.py: get_max_tx_power, adjust_tx_power_with_backoff"]}
{"id": "C15", "title": "Loop pruning preserves net flow and leaves no flow cycle", "statement": "prune_loops terminates, keeps the net flow of every location, never increases or makes negative the flow of any link, and leaves no directed cycle of links that all carry positive flow.", "quantifier": "all finite flow assignments on all directed graphs", "why_tests_cant": "termination and acyclicity over all graphs", "anchors": ["terragraph_planner/optimization/ilp_models/network_optimization.py: prune_loops"]}
{"id": "C16", "title": "A link carries traffic only between opposite polarities", "statement": "In every feasible solution of the optimisation models a wireless link with positive flow, positive time share or active status joins two sites of opposite polarity, each active site having exactly one polarity.", "quantifier": "all feasible assignments of the generated constraint system, for all topologies", "why_tests_cant": "the claim is about every feasible point, not about one solver answer", "anchors": ["terragraph_planner/optimization/ilp_models/network_optimization.py: create_tdm_polarity_constraints, create_polarity constraints", "terragraph_planner/optimization/ilp_models/redundancy_optimization.py: flow polarity", "terragraph_planner/optimization/ilp_models/interference_optimization.py: polarity-link constraints"]}
{"id": "C17", "title": "Time-sharing limits every sector and bounds link throughput", "statement": "In every feasible solution the time shares of a sector's outgoing (and incoming) wireless links sum to at most one if the sector is active and to zero otherwise, and each link's flow is at most its capacity times its time share; hence the total throughput sent by a sector is at most its best link capacity.", "quantifier": "all feasible assignments for all topologies", "why_tests_cant": "universal over feasible points", "anchors": ["terragraph_planner/optimization/ilp_models/network_optimization.py: create_tdm_sector constraints, create_tdm_flow constraints"]}
{"id": "C18", "title": "Supplied flow equals served demand", "statement": "In every feasible solution the flow leaving the super-source equals the total demand minus the total shortage, every intermediate site passes on exactly what it receives, and the flow through a POP does not exceed its capacity.", "quantifier": "all feasible assignments for all flow networks", "why_tests_cant": "a global sum over an arbitrary graph", "anchors": ["terragraph_planner/optimization/ilp_models/network_optimization.py: create_flow_balance_with_shortage, create_pop load constraints"]}
{"id": "C19", "title": "At most one of several co-located sites is chosen", "statement": "In every feasible solution at most one of the candidate sites at one location is selected, and a location that already has an active site keeps an active site whose type is never a downgrade.", "quantifier": "all feasible assignments, all sets of co-located sites and statuses", "why_tests_cant": "universal over inputs and feasible points", "anchors": ["terragraph_planner/optimization/ilp_models/network_optimization.py: create_colocated_site_relationship, _get_max_and_valid_site_types_from_colocated_sites"]}
{"id": "C20", "title": "The LOS range search returns the smallest distance with zero capacity", "statement": "search_max_los_dist_based_on_capacity terminates; its result has zero capacity and lies in the interval; if capacity is non-increasing in distance it is the smallest such distance, and None is returned iff even the upper bound has positive capacity.", "quantifier": "all capacity functions and all integer bounds", "why_tests_cant": "binary search correctness for all functions", "anchors": ["terragraph_planner/los/helper.py: search_max_los_dist_based_on_capacity"]}
{"id": "C21", "title": "LOS ranges are symmetric between DNs and never exceed the configured bound", "statement": "In the map produced for device pairs, every DN->DN pair has the same distance as its reverse, equal to the larger of the two computed ranges, every entry is at most the configured bound, and exactly the pairs with a DN transmitter are present.", "quantifier": "all device lists without duplicate SKUs and all range functions", "why_tests_cant": "the result depends on the iteration order of the list", "anchors": ["terragraph_planner/los/helper.py: get_max_los_dist_for_device_pairs"]}
{"id": "C22", "title": "Batching, memoising and parallelising LOS does not change the answer", "statement": "compute_los returns, for any batch size and any order in which batches finish, exactly the links that one direct evaluation per candidate would give, provided confidence is symmetric and depends only on the two positions.", "quantifier": "all candidate lists, batch partitions and symmetric confidence functions", "why_tests_cant": "all list lengths relative to the batch size, all memo hits", "anchors": ["terragraph_planner/los/core.py: compute_los", "terragraph_planner/los/helper.py: compute_los_batch"]}
{"id": "C23", "title": "One CN (and at most one DN) is kept per building", "statement": "pick_best_sites_per_building keeps every user-supplied site, adds exactly one CN for each building and, if requested, exactly the DN with the most line-of-sight neighbours; the neighbour lists stay mutually inverse and every kept link has a confidence.", "quantifier": "all site lists and LOS graphs", "why_tests_cant": "universal over graphs", "anchors": ["terragraph_planner/los/helper.py: pick_best_sites_per_building"]}
{"id": "C24", "title": "Site connectability is a partition that matches reachability from the POPs", "statement": "get_site_connectable_status partitions all sites into four sets: picked sites reachable from a picked POP through picked sites, the other picked sites, unpicked sites one hop from a reachable site, and the rest.", "quantifier": "all LOS graphs and picked sets", "why_tests_cant": "graph search correctness over all graphs", "anchors": ["terragraph_planner/los/helper.py: get_site_connectable_status"]}
{"id": "C25", "title": "Additional DNs are new, connectable and useful", "statement": "select_additional_dns terminates, returns each DN at most once, only DNs not already picked that are one hop away from a connected site at the time, each covering at least one CN that was unconnected.", "quantifier": "all LOS graphs and picked sets", "why_tests_cant": "termination and greedy choice over all graphs", "anchors": ["terragraph_planner/los/helper.py: select_additional_dns"]}
{"id": "C26", "title": "Every verified LOS link within range appears in the candidate topology", "statement": "For every pair of picked sites with a computed line of sight whose length and elevation angle are within the device limits, the candidate topology contains the corresponding link, whether the end sites came from the input file, from detection or from the base topology.", "quantifier": "all picked sites, LOS links and base topologies", "why_tests_cant": "combinations of delta and base sites are not covered by tests", "anchors": ["terragraph_planner/los/helper.py: add_sites_to_topology, add_links_to_topology, get_los_topology"]}
{"id": "C27", "title": "LOS confidence lies in [0, 1] and respects the threshold", "statement": "compute_confidence of both LOS models returns 0 or a value between the confidence threshold and 1; it returns 0 whenever the pair fails the distance, elevation, same-building or exclusion-zone check, and without elevation data returns 1 for all other pairs.", "quantifier": "all site pairs, obstruction sets and thresholds", "why_tests_cant": "continuous geometry", "anchors": ["terragraph_planner/los/cylindrical_los_validator.py: compute_confidence", "terragraph_planner/los/ellipsoidal_los_validator.py: compute_confidence", "terragraph_planner/los/base_los_validator.py"]}
{"id": "C28", "title": "LOS confidence does not depend on the direction of the link", "statement": "Exchanging the two sites does not change the confidence computed by either LOS model, which is what makes sharing one value for both directions sound.", "quantifier": "all pairs of sites and all surface data", "why_tests_cant": "continuous geometry", "anchors": ["terragraph_planner/los/cylindrical_los_validator.py", "terragraph_planner/los/fresnel_zone.py", "terragraph_planner/los/helper.py: compute_los_batch"]}
{"id": "C29", "title": "A link is given the closest in-range sector at both ends or none", "statement": "add_sectors_to_links assigns to a wireless link a transmit and a receive sector that lie on its end sites and cover its direction within the scan range, choosing a sector of minimal deviation, and never assigns only one of the two.", "quantifier": "all sites, sectors and links", "why_tests_cant": "continuous angles with ties", "anchors": ["terragraph_planner/optimization/topology_preparation.py: add_sectors_to_links"]}
{"id": "C30", "title": "Input sites are deduplicated and uniquely named", "statement": "Loading sites keeps one copy of identical entries, rejects two different sites with the same name and device, and after loading every site can be found under its own, unique name.", "quantifier": "all sequences of input sites", "why_tests_cant": "name collisions arise only for particular sequences", "anchors": ["terragraph_planner/common/data_io/input_sites.py: InputSites"]}
{"id": "C31", "title": "The topology file reader is a round trip for what the writer emits", "statement": "Every folder name the KML writer emits is classified by the KML reader as the same status, site type or link type, and text written through the XML escaping is recovered unchanged and can never close a tag.", "quantifier": "all statuses, types and all strings", "why_tests_cant": "strings with special characters", "anchors": ["terragraph_planner/common/data_io/topology_serializer.py", "terragraph_planner/common/data_io/kml_library.py: extract_raw_data_from_kml_file", "terragraph_planner/common/data_io/data_key.py"]}
{"id": "C32", "title": "An accepted MCS table is sorted consistently", "statement": "If read_mcs_snr_mbps_map_data accepts a table then SNR, throughput and backoff are non-decreasing in the MCS class, and the filtered table contains exactly the rows allowed by the minimum MCS and minimum power.", "quantifier": "all numeric tables of any length", "why_tests_cant": "arbitrary user tables", "anchors": ["terragraph_planner/common/data_io/csv_library.py: read_mcs_snr_mbps_map_data"]}
{"id": "C33", "title": "Availability estimates are probabilities", "statement": "For every failure schedule, the availability computed for every demand site and link lies in [0, 1], and the simulation terminates.", "quantifier": "all topologies, random draws and time limits", "why_tests_cant": "quantifies over all random schedules", "anchors": ["terragraph_planner/optimization/topology_availability.py: compute_availability"]}
{"id": "C34", "title": "CAPEX counts every active site and node once", "statement": "compute_capex equals the sum of the costs of active sites plus, for each node with at least one active sector, the node cost once.", "quantifier": "all topologies and statuses", "why_tests_cant": "depends on the order sectors are visited", "anchors": ["terragraph_planner/optimization/topology_operations.py: compute_capex"]}
{"id": "C35", "title": "Deployment rule violations are exact", "statement": "The pairs reported by the deployment-rule check are exactly the pairs of active links on one site violating the angle or near-far limits, and the sectors reported over the link limit are exactly those with more active links than allowed.", "quantifier": "all topologies and limits", "why_tests_cant": "universal over link sets", "anchors": ["terragraph_planner/optimization/deployment_rules.py"]}
{"id": "C36", "title": "Demand is connected to every site within reach", "statement": "After demand generation each demand site is connected to exactly the sites within the configured distance (or the co-located sites), and no demand site is lost or duplicated.", "quantifier": "all site sets, demand models and distances", "why_tests_cant": "geometric and history dependent", "anchors": ["terragraph_planner/optimization/topology_demand.py"]}
{"id": "C37", "title": "Elevation lookups use the nearest grid cell and stay in range", "statement": "utm_to_idx always returns an index inside the raster, idx_to_utm followed by utm_to_idx is the identity on the raster, the cell returned for a point inside the raster is within half a cell of it, and the obstruction search visits every cell whose centre is inside the box.", "quantifier": "all raster sizes, resolutions and points", "why_tests_cant": "continuous domain, all sizes", "anchors": ["terragraph_planner/los/elevation.py: Elevation"]}
{"id": "C38", "title": "Interference-compatible links are opposite in polarity and equal in channel", "statement": "The polarity filter admits exactly the victim receivers that listen while the interferer transmits, is symmetric in the roles where it should be, and never raises on an active topology.", "quantifier": "all topologies with assigned polarities and channels", "why_tests_cant": "all combinations of unassigned and assigned polarities", "anchors": ["terragraph_planner/optimization/topology_interference.py: _compatible_polarity, _compatible_channel"]}
{"id": "C39", "title": "Applying a solution sets statuses exactly and keeps them consistent", "statement": "update_topology_with_solution proposes exactly the chosen components, un-proposes the rest, leaves EXISTING and UNAVAILABLE components alone, and afterwards an active link joins active sites.", "quantifier": "all topologies and solutions", "why_tests_cant": "all combinations of prior status and decisions", "anchors": ["terragraph_planner/optimization/topology_optimization.py: update_topology_with_solution, _remove_disconnected_components_from_topology"]}
{"id": "C40", "title": "Failure analysis leaves the graph as it found it", "statement": "single_edge_failures, single_site_failures and disjoint_paths examine failures on a graph and restore it exactly, so that later analyses see the same graph; the disconnected demand they report is exactly the demand that loses all POPs.", "quantifier": "all graphs and removal sequences", "why_tests_cant": "aliasing effects across calls", "anchors": ["terragraph_planner/optimization/topology_networkx.py: single_edge_failures, single_site_failures, disjoint_paths"]}
{"id": "C41", "title": "Configuration validation rejects exactly the unusable values", "statement": "A parameter object that is accepted never makes later arithmetic fail (no zero scan range, no non-positive range), and equality and dictionary conversion of configurations are faithful.", "quantifier": "all parameter dictionaries", "why_tests_cant": "combinatorial option space", "anchors": ["terragraph_planner/common/configuration/configs.py"]}
{"id": "C42", "title": "Best sector placement sees the most links", "statement": "Among all ways to place the given number of nodes of a site on the grid of azimuths without overlap and without overloading a sector, the sectors returned see the most links, and among those that see as many have the smallest total deviation.", "quantifier": "all bearings, distances and kinds of neighbours, numbers of nodes and sectors, scan ranges and limits", "why_tests_cant": "optimality over all inputs and all placements", "anchors": ["terragraph_planner/optimization/topology_preparation.py: find_best_sectors, get_sector_azimuths_from_node_center"]}
{"id": "C43", "title": "Sorting a topology is lossless and independent of insertion order", "statement": "Topology.sort keeps every site, sector, link and demand site with its content, puts the tables in order of id, and two topologies with the same content inserted in different orders have identical tables after sort, so the optimizer sees its constraints in the same order from run to run.", "quantifier": "all topologies reachable through the API", "why_tests_cant": "quantifies over all insertion orders", "anchors": ["terragraph_planner/common/topology_models/topology.py: Topology.sort"]}
{"id": "C44", "title": "Removing a sector clears exactly the links that use it", "statement": "remove_sector succeeds exactly for stored sectors; afterwards no stored link refers to the sector, each link that did has lost both its sectors, and everything else is unchanged. Sector ids identify site, node, position and type.", "quantifier": "all topologies reachable through the API and all sector ids", "why_tests_cant": "depends on every incident link in both directions", "anchors": ["terragraph_planner/common/topology_models/topology.py: Topology.remove_sector", "terragraph_planner/common/topology_models/sector.py: Sector.sector_id"]}
{"id": "C45", "title": "Topology queries report exactly what is stored", "statement": "get_site_ids, get_link_site_id_pairs, get_sectorless_links, get_sector_ids, get_site_polarities, get_colocated_sites and the sector connectivity maps return exactly the stored objects that meet the stated filter; co-location groups partition the sites by coordinates.", "quantifier": "all topologies reachable through the API and all filters", "why_tests_cant": "for all contents and filters", "anchors": ["terragraph_planner/common/topology_models/topology.py: get_site_ids, get_link_site_id_pairs, get_sectorless_links, get_sector_ids, get_site_polarities, get_colocated_sites, sector_connectivity"]}
{"id": "C46", "title": "A link between an unavailable and an unreachable site cannot exist", "statement": "Creating a link whose end sites are UNAVAILABLE and UNREACHABLE raises whatever status is requested.", "quantifier": "all statuses and both directions", "why_tests_cant": "an exhaustive statement over all requests", "anchors": ["terragraph_planner/common/topology_models/link.py: Link._check_compatible_status"]}
{"id": "C47", "title": "Reading or copying a location does not move it", "statement": "Reading the latitude/longitude or UTM coordinates of a GeoLocation in any order and any number of times never changes what a later read returns, and copy() returns a location that differs from the original exactly in the attributes passed to it.", "quantifier": "every valid location, every projection, every sequence of reads, every set of overridden attributes", "why_tests_cant": "the coordinates are computed lazily and cached, so what copy() sees depends on the history of reads", "anchors": ["terragraph_planner/common/geos.py: GeoLocation.latitude, GeoLocation.utm_x, GeoLocation.copy"]}
{"id": "C48", "title": "Link capacity is that of the best class that closes", "statement": "For every accepted MCS table the link budget is computed and its capacity is the throughput of the highest class that can be received with the power left after that class's backoff (and not below the minimum power), and 0 if no class can.", "quantifier": "all sector parameters, net gains, noise levels and accepted tables", "why_tests_cant": "the descending search visits classes that are not in the table", "anchors": ["terragraph_planner/common/rf/link_budget_calculator.py: fspl_based_estimation, adjust_tx_power_with_backoff"]}
{"id": "C49", "title": "A better link never has less capacity", "statement": "The capacity given by the link budget does not decrease when the transmit power or net gain grows or the noise shrinks.", "quantifier": "all pairs of links and all accepted tables", "why_tests_cant": "continuous domain; the LOS range search relies on it", "anchors": ["terragraph_planner/common/rf/link_budget_calculator.py: fspl_based_estimation, adjust_tx_power_with_backoff"]}
{"id": "C50", "title": "The plan read from the solver is consistent", "statement": "For every feasible answer of the cost and coverage models, reading it into a plan succeeds, and in the plan: an active link joins two selected sites, has positive capacity, is not ruled out and has an active sector at both ends if wireless; every link carrying flow is active; every selected site was selected by the solver and has an active link or serves demand directly; a sector is active exactly if its node ends an active link; the planned flow has no loops, is conserved at every site and brings each consumer its demand less its shortage.", "quantifier": "all topologies, parameters and feasible solver answers", "why_tests_cant": "the solver answer is an oracle; tests see a handful of optimal answers", "anchors": ["terragraph_planner/optimization/ilp_models/site_optimization.py: SiteOptimization.extract_solution, _extract_link_decisions", "terragraph_planner/optimization/ilp_models/network_optimization.py: prune_loops, get_sites_with_active_links, get_sectors_with_active_links"]}
{"id": "C51", "title": "The reported cost is the price of the plan and respects the budget", "statement": "The cost stored in a plan is the sum of the prices of the selected sites that do not exist yet and of the radio nodes on them with an active sector, each node counted once; in the coverage model, with non-negative prices, it is at most the budget.", "quantifier": "all topologies, parameters and feasible solver answers", "why_tests_cant": "the price constraint is on solver variables, the reported cost is computed from the cleaned-up plan", "anchors": ["terragraph_planner/optimization/ilp_models/site_optimization.py: SiteOptimization.extract_solution, _extract_link_decisions", "terragraph_planner/optimization/ilp_models/network_optimization.py: _extract_cost, create_cost_constraint"]}
{"id": "C52", "title": "A minimum-cost plan delivers the requested coverage", "statement": "In the cost model the shortages of a plan sum to at most (1 - coverage) times the total demand, and the planned flow delivers at least coverage times the total demand, also after loops have been pruned and idle sites removed.", "quantifier": "all topologies, parameters and feasible solver answers", "why_tests_cant": "coverage is constrained before the clean-up that drops flow and sites", "anchors": ["terragraph_planner/optimization/ilp_models/site_optimization.py: SiteOptimization.extract_solution, _extract_link_decisions", "terragraph_planner/optimization/ilp_models/network_optimization.py: create_coverage_constraint"]}
{"id": "C53", "title": "The flow reported for a planned network is realisable and fair", "statement": "For every feasible answer of the flow model, the reported flow: uses only links and sites that are proposed or existing and not redundant; stays within capacity times airtime share on every wireless link and within capacity on every wired one; gives each sector at most all of its airtime; is conserved at every site, has no loops and keeps every POP within its capacity; and brings every connected consumer exactly the same amount, the buffer, so that the total supply is the buffer times the number of connected consumers.", "quantifier": "all topologies, statuses, redundant links and feasible solver answers", "why_tests_cant": "the solver answer is an oracle, and the flow is rewritten (loops pruned) before it is reported", "anchors": ["terragraph_planner/optimization/ilp_models/flow_optimization.py: MaxFlowNetwork, extract_flow_solution", "terragraph_planner/optimization/ilp_models/network_optimization.py: prune_loops"]}
{"id": "C54", "title": "Window queries on elevation data return the cells in the window", "statement": "The points returned for a window are the centres and elevations of the raster cells with centres in it, each once, and beyond the edges the grid goes on with the elevations of the nearest cells; the matrix returned for a window consists of the cells with centres in it, in order.", "quantifier": "all rasters and windows, also windows over the edges", "why_tests_cant": "windows over the edges of the raster are not tested, and Python slices count negative bounds from the end", "anchors": ["terragraph_planner/los/elevation.py: Elevation.get_value_list_within_bound, Elevation.get_value_matrix_within_bound"]}
{"id": "C55", "title": "Resampling takes every elevation from the nearest cell", "statement": "After set_resolution every cell has the elevation of an old cell with the nearest centre, and the raster keeps its origin.", "quantifier": "all rasters and resolutions", "why_tests_cant": "all sizes, continuous domain", "anchors": ["terragraph_planner/los/elevation.py: Elevation.set_resolution"]}
{"id": "C56", "title": "A positive LOS confidence means that the share of the zone is clear", "statement": "If a LOS model returns a positive confidence c, then no surface cell reaches into the zone around the line of sight whose radius is c times the configured (cylinder) or first Fresnel (ellipsoid) radius.", "quantifier": "all pairs of sites, surfaces, radii, frequencies and thresholds", "why_tests_cant": "continuous geometry; the tests compare a few obstructions with stored numbers", "anchors": ["terragraph_planner/los/cylindrical_los_validator.py: compute_confidence", "terragraph_planner/los/ellipsoidal_los_validator.py: compute_confidence", "terragraph_planner/los/fresnel_zone.py"]}
{"id": "C57", "title": "Assigning sectors to fresh links succeeds", "statement": "On a topology whose links have no sectors yet and in which no link is active, assigning sectors to links does not fail: links without sectors in range are left without.", "quantifier": "all sites, sectors, azimuths and links", "why_tests_cant": "the failure needs a link at the very edge of a scan range and bearings that differ in the two directions by thousandths of a degree", "anchors": ["terragraph_planner/optimization/topology_preparation.py: add_sectors_to_links, validate_link_sectors", "terragraph_planner/common/topology_models/link.py: Link._update_azimuth"]}
{"id": "C58", "title": "Placing sectors succeeds for every accepted device", "statement": "For every device the configuration accepts (total coverage at most 360 degrees), placing the sectors of a site with neighbours succeeds.", "quantifier": "all devices, neighbours and violation rules", "why_tests_cant": "the failure needs a scan range that does not fit the grid of 3 degrees", "anchors": ["terragraph_planner/optimization/topology_preparation.py: find_best_sectors", "terragraph_planner/common/configuration/configs.py: DeviceData.__init__"]}
{"id": "C59", "title": "The antenna of a client site points the best way", "statement": "The direction chosen for the node of a client site has the smallest cost (squared deviation, a full turn for links it does not see) of all directions considered.", "quantifier": "all sets of link directions, scan ranges and numbers of sectors", "why_tests_cant": "the cost goes wrong only for links either side of north", "anchors": ["terragraph_planner/optimization/topology_preparation.py: find_best_equidistant_sectors, create_cn_sectors"]}
{"id": "C60", "title": "Every input site entry gives the sites it asks for", "statement": "Every entry of an input file inside the boundary gives one site with the device it names, or one site for each device that suits its type when it names none; an unknown or unsuitable device is reported and no other sites appear.", "quantifier": "all input files, device lists, boundaries and location inferences", "why_tests_cant": "the loss of an entry shows only for particular combinations of device lists and types", "anchors": ["terragraph_planner/common/data_io/input_sites_loader.py: InputSitesLoader.get_input_sites, _construct_sites"]}
{"id": "C61", "title": "The POP capacity bound is the true maximum", "statement": "The maximum total POP capacity reported for a topology equals the largest traffic the POPs can send under any sharing of air time: links of one sector share one unit of time, wired links run in parallel, and each POP is limited by its own capacity.", "quantifier": "all topologies, link capacities, status filters and time shares", "why_tests_cant": "ranges over every schedule, not only sampled ones", "anchors": ["terragraph_planner/optimization/topology_operations.py: compute_max_pop_capacity_of_topology"]}
{"id": "C62", "title": "Only unselectable co-located sites are removed", "statement": "Before adversarial links are searched, exactly the sites that the active sites at the same location exclude are removed: with an active POP everything but active POPs, with an active DN everything but active DNs, with active CNs only the other CNs.", "quantifier": "all topologies and statuses", "why_tests_cant": "depends on the order in which co-located sites are visited", "anchors": ["terragraph_planner/optimization/topology_operations.py: _find_colocated_sites_to_remove"]}
{"id": "C63", "title": "Sectors of one node are proposed together", "statement": "After the adjustment, every sector of a node with a proposed sector is proposed and every other sector is unchanged; the call fails exactly when such a node has an existing or unavailable sector or an inactive site.", "quantifier": "all topologies and statuses", "why_tests_cant": "all combinations of statuses in a node", "anchors": ["terragraph_planner/optimization/topology_operations.py: _set_sector_status_in_same_node"]}
{"id": "C64", "title": "Component counts are exact", "statement": "Every number in the component report equals the number of components it names: active sites per type, positions with a site of each type (co-located candidates count once), positions with a route from a POP, distinct nodes, sectors by kind and by the type of their site, links counted once for both directions and per pair of positions, sites connected to demand, devices per SKU, active CNs with at least two serving sectors, and active radio links per channel.", "quantifier": "all topologies", "why_tests_cant": "each number is a cardinality over all topologies", "anchors": ["terragraph_planner/optimization/topology_component_counter.py: count_topology_components", "terragraph_planner/optimization/topology_component_counter.py: _component_counter", "terragraph_planner/optimization/topology_component_counter.py: _redundant_sites_counter", "terragraph_planner/common/topology_models/link.py: link_hash, link_channel"]}
{"id": "C65", "title": "Adversarial links can be replaced", "statement": "The adversarial links of a plan are backhaul links of the plan whose failure cuts off some demand, and all demand that the candidate network can serve can still be served when all of them fail together. There are no more of them than the requested share of the active backhaul links (rounded up, plus at most one for the reverse direction), they are listed in both directions, and a link is left out only if the candidates cannot do without it or the limit was reached with links that cut off at least as much demand.", "quantifier": "all topologies, link capacities and ratios", "why_tests_cant": "a greedy choice on a mutable copy of a graph, whose result depends on every earlier choice", "anchors": ["terragraph_planner/optimization/topology_operations.py: get_adversarial_links", "terragraph_planner/optimization/topology_networkx.py: find_most_disruptive_links"]}
{"id": "C66", "title": "A longer link is never stronger", "statement": "For a fixed pair of antennas, frequency and weather, the net gain computed for a link exists for every distance up to the 10 km search bound of the line-of-sight planner, never exceeds the antenna gains minus the antenna losses, and never increases when the link gets longer; free-space loss, rain loss and oxygen loss are each non-negative and non-decreasing in the distance, free-space loss is 20 log10(d f) + 92.45 dB (never negative) and oxygen loss interpolates the absorption table linearly, is 0 outside 52-68 GHz and at most 15 dB per km.", "quantifier": "all distances up to 10 km, frequencies from 10 GHz, rain rates of 0 or at least 1 mm/h, availabilities below 100 percent, antenna gains and losses", "why_tests_cant": "The binary search for the longest usable link is only correct if the signal is monotone in the distance, a fact about all pairs of real distances.", "anchors": ["terragraph_planner/common/rf/link_budget_calculator.py: fspl, get_net_gain, compute_rain_loss, compute_oxygen_loss, get_fspl_based_net_gain", "terragraph_planner/common/constants.py: FSPL_MARGIN, UPPER_BOUND_FOR_LOS_DISTANCE"]}
{"id": "C67", "title": "Worse weather or a stricter availability never improves the signal", "statement": "Rain loss is the published attenuation formula, is zero without rain, never decreases when the rain rate increases and never decreases when the requested link availability increases; every availability the configuration accepts gives a loss.", "quantifier": "all distances up to 10 km, frequencies from 10 to 1000 GHz, rain rates of 0 or at least 1 mm/h, availabilities from 0 to 100 percent", "why_tests_cant": "Monotonicity of a fitted curve over real parameters cannot be sampled; the turning point lies outside the values tests use.", "anchors": ["terragraph_planner/common/rf/link_budget_calculator.py: compute_rain_loss", "terragraph_planner/common/configuration/configs.py: SectorParams"]}
{"id": "C68", "title": "A topology file is laid out for its reader", "statement": "A KML topology file has exactly one folder for each status in use and, in it, one folder for each type of site and link; a folder of sites holds exactly the sites of that type and status in order of name, a folder of links exactly the links of that type and status, with the most used of overlapping links first; the style every placemark refers to is defined in the file.", "quantifier": "all topologies: sites, links, demand sites, names, statuses, types, utilisations", "why_tests_cant": "A missing style or a folder that appears twice depends on the combination of status, type and utilisation, and on how consecutive grouping interacts with sorting; tests write one small topology.", "anchors": ["terragraph_planner/common/data_io/topology_serializer.py: write_to_kml_file, _add_site, _add_link, _add_demands", "terragraph_planner/common/data_io/data_key.py: SiteKey, LinkKey"]}
{"id": "C69", "title": "The links of a candidate topology file are loaded as written", "statement": "Loading a candidate topology from KML or CSV gives a wireless link from one site to another exactly when the file asks for one between them in either direction and the first is not a client site; the link has the status the file gives and no other link appears. Backhaul links always come in both directions, the order of the links in the file does not matter, and a file is refused exactly when an end is not found, statuses conflict or do not suit the sites. A topology written by the planner and loaded again has the same wireless links. A link may be given by the names or by the positions of its ends.", "quantifier": "all lists of links, names, positions, statuses and site sets", "why_tests_cant": "The link table is built incrementally from pairs in arbitrary order with name lookups and consistency checks against what was added before; tests load a few fixed files.", "anchors": ["terragraph_planner/common/data_io/utils.py: map_input_sites_links_from_kml, _add_link_between_sites, _find_nearest_sites_to_loc, extract_topology_from_csv_files", "terragraph_planner/common/data_io/csv_library.py: load_topology_link_csv", "terragraph_planner/common/data_io/kml_library.py: extract_links"]}
{"id": "C70", "title": "Inconsistent statuses are caught before optimizing", "statement": "Before an optimization, a topology is accepted exactly when every backhaul or wired link has a reverse link with the same status and the status suits both ends: existing links join existing sites and sectors, proposed links join deployed sites and sectors, and candidate links join no excluded site or sector. Otherwise the documented exception is raised.", "quantifier": "all topologies and all statuses of sites, links and sectors", "why_tests_cant": "The check is a conjunction over all links with cases on statuses, link types and missing sectors; tests try a few hand-made inconsistencies.", "anchors": ["terragraph_planner/optimization/topology_preparation.py: validate_topology_status", "terragraph_planner/optimization/ilp_models/optimization_setup.py: OptimizationSetup"]}
{"id": "C71", "title": "Power control ends within device limits and reports what the final interference allows", "statement": "Before the final analysis the transmit powers of all built links are lowered in rounds until they are stable or the number of rounds is used up. Afterwards every built wireless link is silent or transmits within the limits of its device; its received level, SNR and SINR follow from its power and from the interference of all final powers, and its class and capacity are those of its SINR. Once stable, powers are the least that keep the class of the link and respect the backoff of that class, and a link is silent only if it cannot be used.", "quantifier": "all networks, gains, MCS tables, power limits, interference functions and numbers of rounds", "why_tests_cant": "The powers of all links depend on each other through interference over several rounds; tests check a few small networks after a fixed number of rounds.", "anchors": ["terragraph_planner/optimization/topology_operations.py: update_link_caps_with_sinr", "terragraph_planner/optimization/topology_preparation.py: add_link_capacities", "terragraph_planner/optimization/topology_interference.py: analyze_interference", "terragraph_planner/common/rf/link_budget_calculator.py: adjust_tx_power_with_backoff"]}
{"id": "C72", "title": "Flow statistics of the report", "statement": "For every link of the plan the report shows the flow assigned to it, the percentage of its capacity used (to within a hundred-thousandth of a percent) and how many sites lose service if it fails; other links show nothing new. The utilization figures count each physical link once, unless both directions carry traffic; their maximum is the largest utilization of any link of the plan. The flows shown for a site are those of its links and balance with what its consumers receive. With a routing protocol exactly the links no route uses are marked redundant.", "quantifier": "all networks, flows, capacities, routes and histories of the redundancy marks", "why_tests_cant": "The figures must agree for every network and flow solution, including loops left by the solver's tolerance and repeated reports; tests compare a few numbers for one small network.", "anchors": ["terragraph_planner/optimization/topology_report.py: analyze, get_routing_flow_solution, get_routing_topology, add_statistics_to_topology, get_topology_metrics, site_flow_statistics"]}
{"id": "C73", "title": "Metrics of the report", "statement": "The report is made for every plan with an active POP whose links use planned sectors and whose sectors agree on channels, also when the plan contains wired links. Its figures are exact: backhaul and access links per DN sector (both directions of a link counting once), lengths and MCS classes of links, consequences of failing links, POPs and DNs averaged over all of them, demand with oversubscription, the share of demand with disjoint paths, total and minimum flow, utilization, and the percentiles of availability.", "quantifier": "all networks, demands, flows, failure and availability tables", "why_tests_cant": "The figures combine tables computed by different steps over all links, sectors and sites, with special cases for empty tables; tests compare one or two small plans and none with wired links.", "anchors": ["terragraph_planner/optimization/topology_report.py: get_topology_metrics", "terragraph_planner/optimization/topology_component_counter.py: count_topology_components"]}
{"id": "C74", "title": "Sectors a site already has are checked", "statement": "When a plan is read back, the sectors of a site are accepted exactly if they suit its device: all on the site, at most the allowed number of nodes, every node with its number of sectors side by side at the scan range, and nodes that do not overlap. In particular the sectors the planner placed itself are accepted, in whatever order they are read.", "quantifier": "all lists of sectors with azimuths from 0 to 360, all devices, all placements found for any neighbours", "why_tests_cant": "Azimuths wrap around at north and the check sorts them around a circular mean; tests use a few hand-made nodes whose wrap happens to fall at the mean.", "anchors": ["terragraph_planner/optimization/topology_preparation.py: validate_site_sectors, create_dn_sectors, find_best_sectors", "terragraph_planner/common/geos.py: angle_delta"]}
{"id": "C75", "title": "A redundant plan survives the failures its level promises", "statement": "When redundancy is requested and no shortage is reported for a DN of the base network, that DN still receives from an active POP over planned backhaul links after any failure the level covers: any single link for LOW; any single POP or DN (with several POPs) or any single DN for MEDIUM; a POP and a DN, or three DNs (with several POPs), or two DNs for HIGH. More generally it survives every failure whose weight stays below the reserved sink capacity minus its shortage. The step keeps every POP and DN of the base network, adds nothing but candidate DNs, drops a CN only where a POP or DN stands in its place, and never makes its own problem infeasible; it raises exactly when some DN in service has no usable backhaul link.", "quantifier": "all topologies, parameters, link restrictions, exact solutions of the second problem, and all sets of failed sites and links", "why_tests_cant": "Surviving every failure quantifies over exponentially many cut sets of every network; tests solve one small network and count the sites in the answer.", "anchors": ["terragraph_planner/optimization/ilp_models/redundancy_optimization.py: RedundantNetwork", "terragraph_planner/optimization/topology_optimization.py: _run_redundancy_step", "terragraph_planner/optimization/structs.py: RedundancyParams, RedundancySolution"]}
{"id": "C76", "title": "Proposing extra POPs picks the number asked for", "statement": "Asked for k extra POPs, the planner builds an access network in which every DN that shares no place with a POP counts as a POP and only links into CNs remain, with what no POP reaches marked. Every solution of the problem it then poses keeps a POP at the place of each input POP, uses at most one site per place, and chooses exactly k more sites than there are input POPs, or all possible ones if there are fewer; a DN already in use and alone at its place is always chosen. The call fails exactly when an input POP is existing.", "quantifier": "all topologies built through the API, parameters, numbers of extra POPs and feasible answers of the problem", "why_tests_cant": "The number of POPs chosen depends on the interplay of a global count with per-place exclusivity and fixed decisions, over every network and every solver answer; tests solve one small network.", "anchors": ["terragraph_planner/optimization/ilp_models/pop_proposal_optimization.py: _compute_access_candidate_topology, POPProposalNetwork", "terragraph_planner/optimization/topology_optimization.py: _run_propose_extra_pops_step"]}
{"id": "C77", "title": "Proposed DNs become candidate POPs and nothing else changes", "statement": "For each DN chosen by the POP proposal, the topology gets a candidate POP at the same place, with a candidate copy of every sector of the DN and of every link with sectors between the DN and a site that is no POP, in the direction and of the kind of the original; each demand served by the DN is also connected to the POP. All other sites, sectors, links and demands stay as they were, and the result is a well-formed topology. The call succeeds for every valid topology.", "quantifier": "all topologies built through the API and all decisions", "why_tests_cant": "A variable of the first loop is used in the second and survives from one DN to the next, so the kind of a copied link and even whether the call fails depend on the order and mix of links around each DN; tests use wireless links in both directions only.", "anchors": ["terragraph_planner/optimization/ilp_models/pop_proposal_optimization.py: add_duplicate_pop_to_dn_site", "terragraph_planner/optimization/topology_demand.py: connect_demand_to_colocated_sites"]}
{"id": "C78", "title": "A planning problem can always be posed, and maximum coverage fails only for a reason", "statement": "Once the network of a valid topology has been set up, the site-selection problem can be built for every goal without a failed lookup. Maximising coverage within a budget has an answer exactly when some choice of sites is allowed (none ruled out, one per place, the places in use kept), affordable, and the active backhaul links can be given polarities; with a number of POPs instead of a budget, exactly when some allowed choice has that many POPs. Cables, which have no polarity, never stand in the way.", "quantifier": "all topologies, parameters and goals for which the network is set up", "why_tests_cant": "Infeasibility reported by the solver is a fact about all assignments to all variables; a test sees one solver verdict on one network and cannot tell a wrong constraint from a hard instance.", "anchors": ["terragraph_planner/optimization/ilp_models/network_optimization.py: NetworkOptimization", "terragraph_planner/optimization/ilp_models/site_optimization.py: MaxCoverageNetwork", "terragraph_planner/optimization/ilp_models/pop_proposal_optimization.py: POPProposalNetwork"]}
{"id": "C79", "title": "The site-selection problem admits exactly the good plans", "statement": "A plan fixes which sites are chosen, the polarity of each, how much time and traffic each link gets and how much demand stays unmet. The plans the optimizer may choose from are exactly the good ones that meet the goal: the choice of sites is allowed, active backhaul links and wireless ones in use join opposite polarities, nothing is negative, no link, POP or sector exceeds its capacity, sites that are not chosen neither send nor receive, chosen sites pass on what they receive, every consumer gets its demand but for what stays unmet, and dead or adversarial links carry nothing; and the coverage, budget or POP count asked for is kept. No good plan is excluded by a constraint that is too tight, and none is let in by one that is missing. In particular the place of each end of an active link has a chosen site.", "quantifier": "all topologies, parameters, goals, adversarial links and plans", "why_tests_cant": "Whether a constraint excludes a good plan, or lets in a bad one, concerns all real-valued assignments; a test sees the one optimum the solver returned, and cannot tell that a better plan was excluded.", "anchors": ["terragraph_planner/optimization/ilp_models/network_optimization.py: NetworkOptimization", "terragraph_planner/optimization/ilp_models/site_optimization.py: MinCostNetwork, MaxCoverageNetwork", "terragraph_planner/optimization/ilp_models/pop_proposal_optimization.py: POPProposalNetwork"]}
{"id": "C80", "title": "The deployed links, sectors and channels fit together", "statement": "Every answer of the step that picks links, sectors and channels satisfies: a link in use joins two sites of the network and two sectors that are on, on the same channel if both ends are backhaul sites; sectors that are on belong to sites of the network and are on one channel; a client is served over one link; links are used in both directions; backhaul links in use join opposite polarities; a sector has at most the configured number of backhaul links and of links; existing links between sites of the network are used and links that were ruled out are not; two links that break the angle rule are not used on the same channel unless both exist; only links in use carry traffic; the airtime of a sector on a channel is at most 1 and is 0 on channels it is not on; the sectors of one node are on or off together.", "quantifier": "all topologies, parameters, numbers of channels, limits, sets of links that break the angle rule, and solver answers", "why_tests_cant": "The rules must hold for every answer the solver may return on every network; a test sees one optimum on one network, which may satisfy a rule that no constraint enforces.", "anchors": ["terragraph_planner/optimization/ilp_models/interference_optimization.py: MinInterferenceNetwork", "terragraph_planner/optimization/ilp_models/network_optimization.py: create_same_node_sector_relationship, create_sector_constraints"]}
{"id": "C81", "title": "Deployed links carry no more than interference allows", "statement": "In every answer of the deployment step, a wireless link that carries traffic uses airtime on one channel only, and its device has a rate of at least that traffic whose signal to noise ratio the link reaches on that channel, counting as noise the thermal noise and the signal of every other site of the network that is heard by the receiver while it serves other links on that channel, each weighted with its airtime, and only sites that send at the same time as the transmitter of the link. The traffic fits in the airtime of the link at that rate.", "quantifier": "all topologies, parameters, numbers of channels, device tables, signal strengths and solver answers", "why_tests_cant": "Interference depends on all other links, their channels, polarities and airtime at once, and is linearised with auxiliary variables; a test checks one optimum, where a missing interferer or a wrong linearisation need not show.", "anchors": ["terragraph_planner/optimization/ilp_models/interference_optimization.py: create_exact_capacity_constraints, get_interferering_links, create_tdm_compatible_polarity_decisions, get_interfering_rsl_expr"]}
{"id": "C82", "title": "The deployment plan says what the solver answered", "statement": "Whenever the answer of the deployment step is turned into a plan: the plan contains exactly the eligible wireless links the answer uses and every cable between sites of the network; it contains the sites and sectors at both ends of each of these wireless links, both sectors on the channel the answer has for the sender, also where the receiver is a client; every sector of the plan is on in the answer and stands on a site of the plan with a link of the plan; every site of the plan is in the network and has a link of the plan or serves demand; the ends of backhaul links have opposite polarities; the airtime of a link is its sum over the channels. The sectors of one radio node are on or off together, and every answer can be turned into a plan.", "quantifier": "all topologies, parameters, numbers of channels, angle rules and solver answers", "why_tests_cant": "The reader combines per-channel variables, copies channels from servers to clients in a second pass and switches off what is unused; each step depends on the whole answer, and tests read back one optimum.", "anchors": ["terragraph_planner/optimization/ilp_models/interference_optimization.py: extract_solution, get_link_decisions, get_sector_and_channel_decisions", "terragraph_planner/optimization/ilp_models/network_optimization.py: get_sectors_with_active_links, get_sites_with_active_links"]}
