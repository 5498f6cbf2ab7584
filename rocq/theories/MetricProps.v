(** C73: metrics of the report. *)
From Coq Require Import QArith.
From Verif Require Import Base Dict SetupModel TopologyModel TopologySpec GraphSpec CountModel CountSpec IlpSpec ReportModel ReportSpec MetricSpec MetricProofs MetricMainProofs MetricExamples.
Local Open Scope Q_scope.

(** Exactly when the report is made *)
Theorem C73_report_returns : forall hash sku channel t dist mcs C (capex : result C) demands disconnected at_pops disjoint oversubscription routing edge_failures pop_failures dn_failures, well_formed t ->
  ((exists m, get_topology_metrics hash sku channel t dist mcs capex demands disconnected at_pops disjoint oversubscription routing edge_failures pop_failures dn_failures = Ok m) <->
  ((exists c, capex = Ok c) /\ channels_match channel t /\ ~ oversubscription == 0 /\ (forall b n u, routing = Some (b, n, u) -> u <> nil) /\
   (forall l, plan_link t l -> countable t l) /\ (exists i, a_site t true (fun ty => ty = POP) i))).
Proof. exact returns. Qed.
Print Assumptions C73_report_returns.
(** A wired link in the plan: no report, although all sectors are in order *)
Theorem C73_report_with_wired_links_refuted : exists hash sku channel t dist mcs, reachable t /\ (forall p, no_dash (hash p)) /\ channels_match channel t /\
  (exists i, a_site t true (fun ty => ty = POP) i) /\ (forall l, plan_link t l -> l_type l <> ETHERNET -> countable t l) /\ (exists l, plan_link t l /\ l_type l = ETHERNET) /\
  get_topology_metrics hash sku channel t dist mcs (Ok tt) nil 0 0 0 1 None nil nil nil = Err PyAssertion.
Proof. exact wired_breaks. Qed.
Print Assumptions C73_report_with_wired_links_refuted.

Section Report.
Variables (hash : Z * Z * Z -> string) (sku : string -> string) (channel : string -> Z) (t : topo) (dist : link -> Q) (mcs : link -> nat).
Variables (C : Type) (capex : result C) (demands : list (option Q * nat)) (disconnected at_pops disjoint : nat) (oversubscription : Q)
  (routing : option (Q * nat * dict edge Q)) (edge_failures : dict edge (list string)) (pop_failures dn_failures : dict string (list string)).
Hypothesis W : well_formed t.
Variable m : metrics.
Hypothesis M : get_topology_metrics hash sku channel t dist mcs capex demands disconnected at_pops disjoint oversubscription routing edge_failures pop_failures dn_failures = Ok m.

(** The component counts are those of C64 *)
Theorem C73_counts : exists sk ch, count_topology_components hash sku channel t = Ok (me_counts m, sk, ch).
Proof. exact (report_counts hash sku channel t dist mcs C capex demands disconnected at_pops disjoint oversubscription routing edge_failures pop_failures dn_failures m M). Qed.
(** Links of each DN sector; the two directions of a link count once *)
Theorem C73_links_per_sector : (forall p, no_dash (hash p)) -> exists f g ks, lists ks (dn_sector t) /\
  (forall k, dn_sector t k -> card_up_to (attached t WIRELESS_BACKHAUL k) (same_link hash t) (f k)) /\ (forall k, dn_sector t k -> card_up_to (attached t WIRELESS_ACCESS k) (same_link hash t) (g k)) /\
  summary (map (fun k => num (f k)) ks) (m_avg (me_backhaul_per_sector m)) (m_max (me_backhaul_per_sector m)) (m_min (me_backhaul_per_sector m)) /\
  summary (map (fun k => num (g k)) ks) (m_avg (me_access_per_sector m)) (m_max (me_access_per_sector m)) (m_min (me_access_per_sector m)).
Proof. exact (sector_figures hash sku channel t dist mcs C capex demands disconnected at_pops disjoint oversubscription routing edge_failures pop_failures dn_failures W m M). Qed.
(** Lengths of links, and links by MCS class *)
Theorem C73_lengths_and_classes : (exists ls, lists ls (fun l => plan_link t l /\ l_type l = WIRELESS_BACKHAUL) /\ summary (map dist ls) (m_avg (me_backhaul_dist m)) (m_max (me_backhaul_dist m)) (m_min (me_backhaul_dist m))) /\
  (exists ls, lists ls (fun l => plan_link t l /\ l_type l = WIRELESS_ACCESS) /\ summary (map dist ls) (m_avg (me_access_dist m)) (m_max (me_access_dist m)) (m_min (me_access_dist m))) /\
  (one_class t mcs -> forall c n, (dget (me_backhaul_mcs m) c = Some n <-> (n > 0)%nat /\ card (of_class t mcs WIRELESS_BACKHAUL c) n) /\ (dget (me_access_mcs m) c = Some n <-> (n > 0)%nat /\ card (of_class t mcs WIRELESS_ACCESS c) n)).
Proof. exact (link_figures hash sku channel t dist mcs C capex demands disconnected at_pops disjoint oversubscription routing edge_failures pop_failures dn_failures W m M). Qed.
(** Effects of failures: over all failing links given, over all POPs and over all DNs of the plan *)
Theorem C73_failures : summary (map (fun q => num (List.length (snd q))) edge_failures) (m_avg (me_edge_effect m)) (m_max (me_edge_effect m)) (m_min (me_edge_effect m)) /\
  (dwf pop_failures -> (forall i, In i (dkeys pop_failures) -> a_site t true (fun ty => ty = POP) i) -> exists ks, lists ks (a_site t true (fun ty => ty = POP)) /\
     summary (map (fun i => num (lost pop_failures i)) ks) (m_avg (me_pop_effect m)) (m_max (me_pop_effect m)) (m_min (me_pop_effect m))) /\
  (dwf dn_failures -> (forall i, In i (dkeys dn_failures) -> a_site t true (fun ty => ty = DN) i) -> exists ks, lists ks (a_site t true (fun ty => ty = DN)) /\
     summary (map (fun i => num (lost dn_failures i)) ks) (m_avg (me_dn_effect m)) (m_max (me_dn_effect m)) (m_min (me_dn_effect m))).
Proof. exact (failure_figures hash sku channel t dist mcs C capex demands disconnected at_pops disjoint oversubscription routing edge_failures pop_failures dn_failures W m M). Qed.
(** Demand and flow *)
Theorem C73_demand : dm_number (me_demand m) = List.length demands /\ dm_disconnected (me_demand m) = disconnected /\ dm_at_pops (me_demand m) = at_pops /\ dm_disjoint (me_demand m) = disjoint /\
  dm_total (me_demand m) == sum_of (map (fun d => match fst d with Some q => q * num (snd d) | None => 0 end) demands) /\
  dm_oversubscribed (me_demand m) * oversubscription == dm_total (me_demand m) /\
  ((at_pops < List.length demands)%nat -> dm_percentage (me_demand m) * (num (List.length demands) - num at_pops) == 100 * num disjoint) /\
  ((List.length demands <= at_pops)%nat -> dm_percentage (me_demand m) == 0).
Proof. exact (demand_figures hash sku channel t dist mcs C capex demands disconnected at_pops disjoint oversubscription routing edge_failures pop_failures dn_failures m M). Qed.
Theorem C73_flow : match routing with
  | None => me_flow m = None
  | Some (b, n, u) => exists f, me_flow m = Some f /\ fm_minimum f = b /\ fm_total f == b * num n /\ summary (map snd u) (m_avg (fm_utilization f)) (m_max (fm_utilization f)) (m_min (fm_utilization f))
  end.
Proof. exact (flow_figures hash sku channel t dist mcs C capex demands disconnected at_pops disjoint oversubscription routing edge_failures pop_failures dn_failures m M). Qed.
End Report.
Print Assumptions C73_counts.
Print Assumptions C73_links_per_sector.
Print Assumptions C73_lengths_and_classes.
Print Assumptions C73_failures.
Print Assumptions C73_demand.
Print Assumptions C73_flow.

(** Availability *)
Theorem C73_availability : forall av, (av = nil -> availability_metrics av = (0, map (fun p => (p, 0)) (0 :: 25 :: 50 :: 75 :: 100 :: nil))) /\
  (av <> nil -> fst (availability_metrics av) * num (List.length av) == 100 * sum_of av /\
     exists f, percentiles av f /\ snd (availability_metrics av) = map (fun p => (p, 100 * f p)) (0 :: 25 :: 50 :: 75 :: 100 :: nil) /\ least_of av (f 0) /\ greatest_of av (f 100)).
Proof. exact availability. Qed.
Print Assumptions C73_availability.
