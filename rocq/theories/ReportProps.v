(** C72: flow statistics of the report. *)
From Coq Require Import QArith.
From Verif Require Import Base Dict SetupModel TopologyModel TopologySpec GraphSpec IlpModel IlpSpec PruneModel FlowOptModel FlowOptSpec CountModel ReportModel ReportSpec ReportProofs ReportFlowProofs ReportExamples.
Local Open Scope Q_scope.

(** Every link of the plan reports its flow, the share of its capacity it uses up to a hundred-thousandth of a percent, and the number of
    sites cut off by its failure; other links are left alone *)
Theorem C72_link_statistics : forall t flow cap ef s k l, well_formed t -> no_self_links t -> (forall l', plan_link t l' -> 0 <= assigned flow l') -> link_stored t k l ->
  let s' := add_link_stats t (Some (flow, active_link_utilization flow cap (dvals (t_links t)))) ef s in
  (planned (l_status l) -> st_flow (s' k) = assigned flow l /\
     (exists u, uses flow cap l u /\ (st_util (s' k) == u \/ (st_util (s' k) == 0 /\ 0 <= u <= tolerance))) /\
     (assigned flow l <= cap l -> 0 <= st_util (s' k) <= 100) /\
     st_breakdowns (s' k) = List.length (match dget ef (l_tx l, l_rx l) with Some x => x | None => [] end)) /\
  (~ planned (l_status l) -> s' k = s k).
Proof. exact link_report. Qed.
Print Assumptions C72_link_statistics.

(** The statistics have one value for a link in one direction only, two for two directions that are both used, otherwise that of the
    direction that is used more *)
Theorem C72_values_of_a_link : forall t, well_formed t -> forall flow cap, no_self_links t ->
  forall l, plan_link t l -> (forall l', plan_link t l' -> 0 <= assigned flow l') ->
  let util := active_link_utilization flow cap (dvals (t_links t)) in
  ((forall l', plan_link t l' -> ~ opposite_ways l l') -> exists u, uses flow cap l u /\ entry util l u) /\
  (forall l' u u', plan_link t l' -> opposite_ways l l' -> uses flow cap l u -> uses flow cap l' u' ->
     (tolerance < u -> tolerance < u' -> exists q q', entry util l q /\ entry util l' q' /\ q == u /\ q' == u') /\
     (u <= tolerance \/ u' <= tolerance ->
        (exists q, entry util l q /\ q == u /\ no_entry util l' /\ u' <= tolerance /\ u' <= u) \/ (exists q, entry util l' q /\ q == u' /\ no_entry util l /\ u <= tolerance /\ u <= u'))).
Proof. exact one_value. Qed.
Print Assumptions C72_values_of_a_link.
Theorem C72_values_are_of_the_plan : forall t, well_formed t -> forall flow cap, no_self_links t -> forall e q,
  let util := active_link_utilization flow cap (dvals (t_links t)) in
  dget util e = Some q -> exists l, plan_link t l /\ entry util l q /\ e = (l_tx l, l_rx l) /\ uses flow cap l q.
Proof. exact entries_exact. Qed.
Print Assumptions C72_values_are_of_the_plan.

(** A flow the optimizer may return, for which two directions of one link are counted as two *)
Theorem C72_one_value_per_link_refuted : exists ps at_ t I0 red con P v o l l' q q',
  reachable t /\ no_self_links t /\ names_ok at_ t /\ network ps at_ t = Ok I0 /\ flow_problem red con t I0 = Ok P /\ feasible P v /\ extract_flow_solution red con t I0 v = Ok o /\
  plan_link t l /\ plan_link t l' /\ opposite_ways l l' /\
  entry (active_link_utilization (fs_flow o) (fun l => a_cap at_ (l_tx l, l_rx l)) (dvals (t_links t))) l q /\
  entry (active_link_utilization (fs_flow o) (fun l => a_cap at_ (l_tx l, l_rx l)) (dvals (t_links t))) l' q'.
Proof. exact both_directions. Qed.
Print Assumptions C72_one_value_per_link_refuted.

(** Average, largest and smallest utilization: the largest is that of all links of the plan; without such links the report fails *)
Theorem C72_utilization_summary : forall t, well_formed t -> forall flow cap, no_self_links t -> (forall l', plan_link t l' -> 0 <= assigned flow l') ->
  let util := active_link_utilization flow cap (dvals (t_links t)) in
  ((forall l, ~ plan_link t l) -> stats_nonempty (dvals util) = Err PyZeroDivision) /\
  ((exists l, plan_link t l) -> exists s, stats_nonempty (dvals util) = Ok s /\ summary (dvals util) (m_avg s) (m_max s) (m_min s) /\
     (exists l u, plan_link t l /\ uses flow cap l u /\ m_max s == u) /\ (forall l u, plan_link t l -> uses flow cap l u -> u <= m_max s) /\
     (exists l u, plan_link t l /\ uses flow cap l u /\ m_min s == u)).
Proof. exact util_stats. Qed.
Print Assumptions C72_utilization_summary.

(** The flow out of and into a site is that of the links of the plan *)
Theorem C72_site_flows : forall t, well_formed t -> forall s i os is_, (forall d, In d (dkeys (t_demands t)) -> ~ site_stored t d) ->
  lists os (leaving t i) -> lists is_ (entering t i) ->
  outgoing (site_flow t s) i == total (fun k => st_flow (s k)) os /\ incoming (site_flow t s) i == total (fun k => st_flow (s k)) is_.
Proof. exact site_flows. Qed.
Print Assumptions C72_site_flows.

(** What the report shows for the flow found by the optimizer: a site takes in what it passes on and what its consumers receive; a POP
    is fed in addition *)
Theorem C72_site_balance : forall ps at_ t I0 red con P v o, well_formed t -> names_ok at_ t -> network ps at_ t = Ok I0 -> flow_problem red con t I0 = Ok P ->
  feasible P v -> extract_flow_solution red con t I0 v = Ok o -> (forall d, In d (dkeys (t_demands t)) -> ~ site_stored t d) -> forall util ef s0 i ci,
  let s := add_link_stats t (Some (fs_flow o, util)) ef s0 in
  site_stored t i -> lists ci (serves at_ t i) ->
  (~ is_pop t i -> incoming (site_flow t s) i == outgoing (site_flow t s) i + total (carried o) ci) /\
  (is_pop t i -> incoming (site_flow t s) i + carried o (SUPERSOURCE, i) == outgoing (site_flow t s) i + total (carried o) ci).
Proof. exact site_balance. Qed.
Print Assumptions C72_site_balance.

(** With a routing protocol a link is marked redundant if no route uses it in either direction; marks are never taken back *)
Theorem C72_redundant_links : forall t routes red, reachable t -> exists red', get_routing_topology t routes red = Ok red' /\
  forall k, red' k = true <-> red k = true \/ off_route t routes k.
Proof. exact routing_marks. Qed.
Print Assumptions C72_redundant_links.
Theorem C72_flags_follow_routes_refuted : exists t routes routes' red red' k, reachable t /\ get_routing_topology t routes (fun _ => false) = Ok red /\
  get_routing_topology t routes' red = Ok red' /\ In k routes' /\ (exists l, link_stored t k l) /\ red' k = true.
Proof. exact flags_stay. Qed.
Print Assumptions C72_flags_follow_routes_refuted.
