{
 "C01": "Neighbour indexes, table closure and completeness of the sector index proved for all histories. The converse for the sector index is false: remove_site never clears its entry (C01_sector_index_refuted); it is proved for histories that remove no site holding sectors.",
 "C02": "Sites, links and sectors proved exact; success characterised. False parts: demand sites keep the removed site, and a self-link makes removal raise.",
 "C03": "Proved for sites without sectors; for every site with sectors the second removal is proved to raise KeyError.",
 "C04": "Proved, plus a refutation for get_link_by_sector_ids, which ignores the sectors a link uses.",
 "C05": "Proved except get_wireless_predecessor_sites, which looks up the link in the wrong direction (refuted); exact when links are symmetric.",
 "C06": "Proved for all assignment histories.",
 "C07": "False in general (three refutations); proved for histories without demotion of an active site, and for EXISTING links always.",
 "C08": "Hop counts equal shortest directed distances, termination and absence of lookup errors included; reachable demand exact.",
 "C09": "On normal return the marking is exact; it returns normally iff no immutable status is in the way. Refuted: otherwise it raises half way, and a hop limit of 0 means no limit.",
 "C10": "Exact rationals; rounding of one float subtraction is not modelled.",
 "C11": "Proved on exact rationals.",
 "C12": "Proved; rationals are exact here because all cell borders are representable.",
 "C13": "Proved for tables with distinct classes; the inverse lookups need strictly increasing thresholds. Refuted for equal thresholds, which the loader accepts: the looked-up threshold of the lower class is 0.",
 "C14": "Device maximum, backoff and minimum proved. The EIRP cap holds only if the minimum power respects it; refuted otherwise. The power of a class-0 link budget can be below the minimum (refuted).",
 "C15": "Termination, net flow and bounds proved; acyclicity for flows above epsilon. Refuted: cycles of flow at most epsilon stay. Self-links, excluded by the setup, would become negative.",
 "C16": "Proved for the solver models and for the plans read from their answers. The interference model is not covered.",
 "C17": "Site selection models. The sector is active exactly when its site is selected.",
 "C18": "Site selection models; names of sites and consumers assumed distinct.",
 "C19": "Site selection models. A POP that is unavailable is not forced off when POPs are always active.",
 "C20": "For any capacity function; C20_link_budgets_qualify instantiates it with the link budget model when the net gain falls with distance (net gain itself is an oracle).",
 "C21": "Device lists with distinct SKUs (checked by LOSParams).",
 "C22": "Pool.map is modelled as workers writing their slot in any order of completion; compute_confidence is an oracle assumed symmetric and positional (see C28).",
 "C23": "pick_best_sites_per_building and the neighbour lists of core.py modelled as is. The site chosen sees most sites at the time of the choice only: the CNs of buildings handled earlier are counted, so the claim about the computed graph is refuted. Links of building sites must go both ways, which holds for computed links (C23_computed_graph).",
 "C24": "Breadth first search modelled with a queue; fuel shown sufficient.",
 "C25": "Set enumeration order is arbitrary. Also proved: every unreached CN seen by a site one hop from a connected one is covered. Not claimed: CNs further away are covered, since each is tried three times only.",
 "C26": "Proved for lines of sight between sites that are not already in the base topology and are not marked unavailable: every one within the limits is in the topology built, the only links besides those of the base topology, which are all kept. Refuted otherwise: a picked site already in the base topology is left out of the site map, so its lines of sight to other sites get no link; one line of sight to a site the user listed as unavailable makes the Link constructor raise and no topology is built. Distances and elevation angles are parameters; the confidence stored on the link is not modelled.",
 "C27": "Proved for the checks, for links without surface data, for the cylinder, for level links with the ellipsoid, and for other links whose surroundings have no cell in a blind spot of the ellipsoid (in the inner zone below the line, and at an end or off the ellipse on the map). Refuted in general: on a steep link a cell at an end gives a positive confidence below the threshold. Exact reals instead of floats; shapely's intersection test is a parameter.",
 "C28": "Proved for both models, as equality of the results including failures, provided the intersection test of exclusion zones does not depend on the direction of the line.",
 "C29": "add_sectors_to_links and validate_link_sectors over exact rational angles, bearing_in_degrees an oracle. Both sectors or none, on the end sites, covering the direction with minimal deviation, for links assigned directly; a link assigned through the link back gets sectors that are right for the link back only, and need not cover its own direction (refuted with a witness: rx_beam_azimuth is tx+180 instead of the bearing back).",
 "C30": "Loading, rejection, lookups by name and id and the renaming rule are proved for all inputs; unique names are proved when no name equals another's name with the device appended (partial), and refuted otherwise (two sites named A_x). Ids can be shared by two names, and a rejected site is silently ignored on retry: both proved.",
 "C31": "Round trip of a topology through write_to_kml_file and extract_raw_data_from_kml_file for every topology with XML-readable names and a name of the topology without < or &. Refuted: a topology name with markup makes the file unreadable, control characters are lost, and confidence levels and building ids do not survive. The GDAL LIBKML driver is modelled (xml_text, layers, launder, read_mark); float formatting is an oracle.",
 "C32": "Proved from the raw csv lines on. Also shown: ascending tables are accepted, descending ones with equal values in a column are not.",
 "C33": "compute_availability in full: for every drawn sequence and wherever the time limit strikes, availability is exactly the share of the simulated time during which the demand is connected (link works); keys exact; values in [0,1]; all error cases. Refuted: availability 0 is accepted but raises; link availability is not rescaled at the time limit. Times are exact rationals; drawn numbers are an oracle.",
 "C34": "Exact when the sectors of each node agree, which holds after _set_sector_status_in_same_node; never more than the expenditure. Refuted in general: only the first sector seen of a node decides (C34_capex_refuted).",
 "C35": "Angle and near-far pairs exact (sorted, no duplicates), for active links and for all links; the check returns exactly when every pair of links of a site can be measured and sectors are known. Sector limits exact. Refuted: the check raises on an active link without sectors, and the receivers listed for an overloaded sector include ends of inactive links. Angles and length ratios come from an oracle that is symmetric in the two far sites.",
 "C36": "Ids, positions, demand, numbers and connections of all demand sites after generation, for every mix of the three demand models, with termination; the growing-list loop is proved to compute the closure. Proved under 'roomy': the grid does not reach beyond 180 degrees; if it does, the loop is proved never to return. Refuted: a manual demand site with a CN at its position loses its connections and number when CN demand is enabled. Distances, hash ids (assumed injective) and grid_deltas are oracles; coordinates exact.",
 "C37": "Coordinates are exact reals. The obstruction search clips the box to the area of interest first, so the theorem is about cells with centres in both. Uses the axioms of Coq's Reals.",
 "C38": "The model covers the CN polarity table, both filters, the whole net-gain map, the interference sums and the resulting SINR; gains, powers and logarithms are oracles. 'Never raises' is refuted: an active CN without an active incoming link raises KeyError; proved to return whenever every active CN is served.",
 "C39": "Sites, sectors and links (statuses, polarities, channels) after applying a solution: when it returns, the exact result, active links and sectors have active sites, proposed sites with a sector are connected. The connection claim is false for sites without a sector (C39_connected_refuted), and a proposed link between disconnected existing sites keeps its status while its sectors lose theirs (C39_link_without_sectors_refuted). existing_supported is what C07 keeps of links.",
 "C40": "Exact results for the demand graph, connected demand, link and site failures, disjoint paths, routing and the most disruptive links, for every topology that the operations can reach. networkx is modelled as a dictionary of dictionaries; the choice among shortest paths is an oracle assumed to return paths (a breadth-first search that meets the assumption is given). Refuted parts: disjoint_paths puts links back without their type, so a later single_edge_failures counts wired links; it can miss a demand with two link-disjoint paths; the disruptive links can be one more than asked for; a one-way link raises KeyError.",
 "C41": "Validation of the four parameter classes, defaults, unknown and misspelt fields, enum names in any case, conversion to a dictionary and back. Refuted: accepted values can still make later arithmetic fail; equality ignores the length of lists.",
 "C42": "find_best_sectors: full optimality when no two links are forced together or apart (as in the preparation of the topology); with channels it may return nothing although a node sees every link on the right sectors. Bearings and distances are inputs; floats exact.",
 "C47": "Reads proved stable under every history; copy with an altitude proved for fresh locations. Refuted: after the latitude of a UTM location was read, copy(utm_x=...) ignores the override.",
 "C48": "Proved for tables without gaps, without class 0 and with strictly increasing thresholds. Refuted without these: a missing class loses capacity, a class-0 row gives capacity to dead links, and the accepted table can be empty.",
 "C49": "Proved for the same tables as C48; refuted with a missing class.",
 "C50": "The solver is an oracle: the theorems hold for every feasible assignment in exact arithmetic. Hypothesis sectors_present: sectors named by links are in the topology.",
 "C51": "As C50.",
 "C52": "As C50; the variant with maximize_common_bandwidth is not modelled.",
 "C53": "Over every feasible assignment of the MaxFlow linear program and the flow extracted from it. C53_sector_time_shares also records that an EXISTING (not PROPOSED) sector gets no airtime in this model.",
 "C54": "The list query is proved for every window, the matrix query for windows that reach less than one cell over the edges. Refuted: a window one cell or more over the left or upper edge gives negative slice bounds, which Python counts from the end, so cells of the window are missing. Elevations without data are not covered.",
 "C55": "Proved for rasters without missing cells.",
 "C56": "Proved for the cylinder and for level links with the ellipsoid; refuted for steep links with the ellipsoid, where a wall reaches into the zone said to be clear.",
 "C57": "Proved when bearings there and back are exactly opposite; refuted otherwise: the pair just chosen for a link is validated against the bearing back and raises OptimizerException at the edge of the scan range.",
 "C58": "Exact condition proved when no link limits are given; false for e.g. 9 nodes of 40 degrees. Link limits not covered.",
 "C59": "One node per client site, as DeviceData requires. Optimal unless a link is within half the node's angle of north; refuted there.",
 "C60": "Proved, except that an entry without a device for which no device suits is dropped silently (refuted).",
 "C61": "The reported value is the maximum over all time shares of the links. Link capacities are a function of the link id.",
 "C62": "The set of removed sites, for every topology.",
 "C63": "When the adjustment returns and the exact result.",
 "C64": "All fields of the report. Geohash, device SKU and sector channel are oracles; the geohash contains no dash. The report fails exactly when the two sectors of an active radio link are on different channels.",
 "C65": "Proved for every reachable topology, with exact arithmetic for the number of links. Refuted without the requirement that links of the plan have capacity: a critical active link of zero capacity makes the function raise NetworkXError.",
 "C66": "over exact reals; antenna gains are parameters; frequencies from 10 GHz, rain 0 or >= 1 mm/h, availability < 100; the range d <= 10 km is the planner's own search bound",
 "C67": "proved up to 99.999 percent availability; refuted beyond (the fitted curve turns around) and at 100 percent (accepted by the configuration, ValueError from the logarithm)",
 "C68": "Layout of the KML file. Styles are defined only if no POP is UNREACHABLE, links used over 80 % are deployed and no demand is negative (refuted otherwise).",
 "C69": "Exact content and acceptance of loaded links for KML and CSV; order independence; reload of a written topology. Refuted: KML links without site names are refused although a nearest-site search exists (names are never None, so that search is dead code); links from a site to itself are loaded; a file with links but no sites fails an assertion instead of raising a data error. KD-tree and projection are oracles.",
 "C70": "The accepted topologies are characterised exactly. Refuted: links to clients have no reverse and are never checked, so a proposed link to a candidate client is accepted; a deployed wired link has no sectors and is always refused, so a consistent wired network is refused.",
 "C71": "Interference is an arbitrary function of all powers (its computation is C38). Floats are exact rationals with infinities and NaN. Refuted: with a smallest power the final class may need a backoff the power exceeds; a link that falls silent never comes back, so links that drown each other all end silent although each would work; links that are not built may be given more capacity than any permitted power gives.",
 "C72": "Proved: per-link statistics, number of utilization values per physical link, utilization summary, site flows and their balance with the extracted flow, redundancy marks. Refuted: one value per physical link (a loop below the pruning threshold of the flow solution leaves an entry for each direction) and marks reflecting the latest routes (get_routing_topology never resets is_redundant). Decimal rounding of printed numbers is not modelled.",
 "C73": "Proved: exactly when the metrics are produced, and what each figure is. Refuted: metrics are produced with wired links in the plan (none_throws on the sectors of a link before its type is looked at). MCS counts are exact when both directions of a link have the same class; otherwise the class of the direction stored last is counted. Failure tables are assumed to be keyed by active POPs and DNs, as disjoint_paths builds them.",
 "C74": "Soundness of acceptance for any circular mean; exact for one sector per node; sectors placed by find_best_sectors are accepted for at most two sectors per node or when no node passes north. Refuted in general: the two halves are sorted as numbers (lines 421, 427), so a node of four sectors with north inside one half is refused with OptimizerException although the planner placed it. The circular mean is an oracle; C74_mean_is_the_centre shows over the reals that it is the centre of the node. Azimuths are exact rationals.",
 "C75": "Exact solutions of the second problem; floats are rationals and the solver, the heuristic that restricts the links and the objectives are not modelled (the restriction is an arbitrary set). The claim on CNs needs a positive POP capacity, the one on polarities needs every active link to be within the restriction. Finding: a DN in service without a usable backhaul link makes the whole step raise (C75_step_fails_exactly_for_cut_off_dns, C75_cut_off_example).",
 "C76": "Refuted parts: (1) an EXISTING input POP makes the proposal raise, because its status is set to PROPOSED; (2) two input POPs of different devices at one place count twice, so more new POPs than asked for are chosen; (3) more DNs in use than extra POPs, or DNs of different devices at one place, leave the equality constraint without an answer although POPs could be added (the planner then only logs a warning). The count theorem for new POPs needs input POPs at different places. Rests on functional extensionality.",
 "C77": "Exact result of the call, with the kind of the copies of incoming links taken from some outgoing link of a chosen DN; faithful for wireless networks; totality under conditions. Refuted in general: a wireless link may be copied as wired, an unavailable neighbour or a DN that only receives makes the call fail.",
 "C78": "Refuted part: active links are forced to join opposite polarities even when they are cables (network_optimization.py 877-887 does not exempt wired links, while 497-532 does), so an odd cycle of existing cables has no answer. Feasibility under CostUnderCoverage is only given a necessary condition.",
 "C79": "Both directions proved for all three goals. The last sentence is refuted: only the status of a lone site forces it to be chosen (network_optimization.py 843-876). A comment there relies on the check of statuses for the ends of active links, but that check skips links to clients (C70).",
 "C80": "Refuted for sectors of one node: create_same_node_sector_relationship (network_optimization.py 400-425) tests whether a pair (place, sector) is a key of a dictionary whose keys are triples (place, sector, channel), so the constraint is never generated and one sector of a node can be on while another is off, also with the capacity constraints of C81 added. All other rules are proved for every answer.",
 "C81": "The rate is proved for every answer. Refuted for airtime: the traffic is bounded by the rate under interference, and by the airtime times the rate without interference, but not by the airtime times the rate under interference (interference_optimization.py 1047-1052 says so), so a link can carry twice what its airtime allows. Links whose signal strength is exactly 0 are outside the theorem. C81_one_channel: airtime on one channel only, also without traffic.",
 "C82": "Proved for every answer of the constraints of C80 that the reader accepts; channel equality for links whose sender is not a client. Two sentences are false: nodes may have one sector on and one off (C82_same_node_refuted), and an answer with airtime on two channels for a wireless link without sectors is rejected with an OptimizerException (C82_readable_refuted, witness for the whole problem with interference). If all wireless links have sectors and capacity and none joins two clients, every answer is read (C82_readable_partial, without a minimum bandwidth)."
}