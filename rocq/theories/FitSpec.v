(** What C79 means: the plans a planner should be able to choose from, in terms of the topology. *)
From Coq Require Import QArith.
From Verif Require Import Base Dict TopologyModel TopologySpec SetupModel IlpModel IlpSpec ExtractSpec SolveSpec.
Local Open Scope Q_scope.

(** The demand of each consumer, and all of it. *)
Definition demands (ps : params) (at_ : attrs) (t : topo) (dem : string -> Q) (all : Q) : Prop :=
  (forall n, consumer at_ t n -> wants ps at_ t n (dem n)) /\ exists cs, lists cs (consumer at_ t) /\ all == total dem cs.
(** The capacity of the best link, or that of a POP if there are no links. *)
Definition best_link (ps : params) (at_ : attrs) (t : topo) (m : Q) : Prop :=
  (forall k l, link_stored t k l -> a_cap at_ (l_tx l, l_rx l) <= m) /\
  ((exists k l, link_stored t k l /\ m == a_cap at_ (l_tx l, l_rx l)) \/ ((forall k l, ~ link_stored t k l) /\ m == p_pop_capacity ps)).
(** Links nothing may be sent over. *)
Definition dead_link (l : link) : Prop :=
  l_status l = UNAVAILABLE \/ l_status l = UNREACHABLE \/ (l_wireless l = true /\ l_sectors l = None).
(** A plan: sites, polarities, time shares, flows and unmet demand. *)
Record good_plan (ps : params) (at_ : attrs) (t : topo) (adversarial : list edge) (dem : string -> Q) (all : Q) (v : var -> Q) : Prop := {
  (* each site is chosen or not, and the choice is allowed *)
  gp_site : forall i, site_stored t i -> v (VSite i) == 0 \/ v (VSite i) == 1;
  gp_choice : site_choice ps t (fun i => site_stored t i /\ selected v i);
  (* POPs and DNs have a polarity; active links and links in use, cables in use excepted, join both polarities *)
  gp_odd : p_ignore_polarities ps = false -> forall i, backhaul_site t i -> v (VOdd i) == 0 \/ v (VOdd i) == 1;
  gp_active : p_ignore_polarities ps = false -> forall k l, link_stored t k l -> active_link l -> backhaul_site t (l_tx l) -> backhaul_site t (l_rx l) -> opposite v (l_tx l) (l_rx l);
  gp_polarity : p_ignore_polarities ps = false -> forall k l, link_stored t k l -> l_wireless l = true -> backhaul_site t (l_tx l) -> backhaul_site t (l_rx l) ->
    0 < share v 0 (l_tx l, l_rx l) -> opposite v (l_tx l) (l_rx l);
  (* nothing negative, and nothing over capacity *)
  gp_flow : forall e, flow_edge at_ t e -> 0 <= flow v e;
  gp_share : forall k l, link_stored t k l -> l_wireless l = true -> 0 <= share v 0 (l_tx l, l_rx l) <= 1;
  gp_wireless : forall k l, link_stored t k l -> l_wireless l = true -> flow v (l_tx l, l_rx l) <= a_cap at_ (l_tx l, l_rx l) * share v 0 (l_tx l, l_rx l);
  gp_wired : forall k l, link_stored t k l -> l_wireless l = false -> flow v (l_tx l, l_rx l) <= a_cap at_ (l_tx l, l_rx l);
  gp_source : forall i, is_pop t i -> flow v (SUPERSOURCE, i) <= p_pop_capacity ps;
  gp_last : forall i n m, site_stored t i -> consumer at_ t n -> flow_edge at_ t (i, n) -> best_link ps at_ t m -> flow v (i, n) <= m;
  gp_pop : forall i es, is_pop t i -> out_of at_ t i es -> total (flow v) es <= p_pop_capacity ps;
  (* the links of a sector share its time, and a sector has time only if its site is chosen *)
  gp_sector : forall k x es, sector_stored t k x -> lists es (sends t x) \/ lists es (receives t x) -> total (share v 0) es <= v (VSite (x_site x));
  (* chosen sites pass on what they receive, at most all the demand; others receive nothing *)
  gp_through : forall i ei eo, site_stored t i -> into at_ t i ei -> out_of at_ t i eo -> total (flow v) ei == total (flow v) eo /\ total (flow v) ei <= all * v (VSite i);
  (* consumers get their demand but for what stays unmet, and the source supplies just that *)
  gp_short : forall n, consumer at_ t n -> 0 <= v (VShort n) <= dem n;
  gp_consumer : forall n ei, consumer at_ t n -> into at_ t n ei -> total (flow v) ei == dem n - v (VShort n);
  (* nothing over dead links *)
  gp_dead : forall k l, link_stored t k l -> dead_link l -> flow v (l_tx l, l_rx l) == 0;
  gp_adversarial : forall e, flow_edge at_ t e -> In e adversarial -> flow v e == 0 }.
(** What the plan is also asked for. *)
Definition goal_met (ps : params) (at_ : attrs) (t : topo) (dem : string -> Q) (all : Q) (g : goal) (v : var -> Q) : Prop :=
  match g with
  | CostUnderCoverage => forall cs, lists cs (consumer at_ t) -> p_coverage ps * all <= total (fun n => dem n - v (VShort n)) cs
  | CoverageUnderCost => forall chosen q, lists chosen (fun i => site_stored t i /\ selected v i) -> costs ps at_ t chosen q -> q <= p_budget ps
  | CoverageUnderPops n => n = 0%nat \/ forall pops, lists pops (fun i => is_pop t i /\ selected v i) -> List.length pops = n
  end.
