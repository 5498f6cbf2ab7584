(** C64: the component counts of the report are exact. *)
From Coq Require Import ZArith.
From Verif Require Import Base Dict TopologyModel TopologySpec GraphModel GraphSpec GraphProofs DeploySpec CountModel CountSpec CountProofs CountMainProofs CountExamples CountFinalProofs.

Theorem C64_site_counts_exact : forall hash sku channel t c sk ch, well_formed t -> count_topology_components hash sku channel t = Ok (c, sk, ch) ->
  (card (a_site t true any) (active_sites c) /\ card (a_site t true (fun ty => ty = POP)) (active_pop_sites c) /\ card (a_site t true (fun ty => ty = DN)) (active_dn_sites c) /\ card (a_site t true (fun ty => ty = CN)) (active_cn_sites c)) /\
  (cardZ (a_place t false) (total_sites c) /\ cardZ (fun p => a_place t false (p, POP)) (total_pop_sites c) /\ cardZ (fun p => a_place t false (p, DN)) (total_dn_sites c) /\ cardZ (fun p => a_place t false (p, CN)) (total_cn_sites c)) /\
  (cardZ (fun p => a_place t true (p, DN)) (connectable_dn_sites c) /\ cardZ (fun p => a_place t true (p, CN)) (connectable_cn_sites c)) /\
  (card (fun i => a_site t true (fun ty => ty = POP) i /\ demanded t i) (active_demand_connected_pop_sites c) /\ card (fun i => a_site t true (fun ty => ty = DN) i /\ demanded t i) (active_demand_connected_dn_sites c) /\
   card (fun i => a_site t true (fun ty => ty = CN) i /\ demanded t i) (active_demand_connected_cn_sites c)) /\
  (forall x n, dget sk x = Some n <-> n > 0 /\ card (fun i => a_site t true any i /\ sku i = x) n).
Proof. exact site_counts. Qed.
Print Assumptions C64_site_counts_exact.

Theorem C64_sector_counts_exact : forall hash sku channel t c sk ch, well_formed t -> count_topology_components hash sku channel t = Ok (c, sk, ch) ->
  (card (a_node t true) (active_nodes c) /\ card (a_node t false) (total_nodes c) /\
   card (fun q => a_node t true (q, false)) (active_dn_nodes c) /\ card (fun q => a_node t false (q, false)) (total_dn_nodes c) /\
   card (fun q => a_node t true (q, true)) (active_cn_nodes c) /\ card (fun q => a_node t false (q, true)) (total_cn_nodes c)) /\
  (card (a_sector t true any) (active_sectors c) /\ card (a_sector t false any) (total_sectors c) /\ card (a_sector t true (fun cn => cn = true)) (active_cn_sectors c) /\
   card (fun k => a_sector t true (fun cn => cn = false) k /\ on_type t POP k) (active_dn_sectors_on_pops c) /\
   cardZ (fun k => a_sector t true (fun cn => cn = false) k /\ ~ on_type t POP k) (active_dn_sectors_on_dns c)).
Proof. exact sector_counts. Qed.
Print Assumptions C64_sector_counts_exact.

Theorem C64_link_counts_exact : forall hash sku channel t c sk ch, well_formed t -> (forall p, no_dash (hash p)) -> count_topology_components hash sku channel t = Ok (c, sk, ch) ->
  card_up_to (a_link t true WIRELESS_BACKHAUL) (same_link hash t) (active_backhaul_links c) /\ card_up_to (a_link t false WIRELESS_BACKHAUL) (same_link hash t) (total_backhaul_links c) /\
  card_up_to (a_link t true WIRELESS_ACCESS) (same_link hash t) (active_access_links c) /\ card_up_to (a_link t false WIRELESS_ACCESS) (same_link hash t) (total_access_links c) /\
  card_up_to (a_link t true ETHERNET) (same_link hash t) (active_wired_links c) /\ card_up_to (a_link t false ETHERNET) (same_link hash t) (total_wired_links c).
Proof. exact link_counts. Qed.
Print Assumptions C64_link_counts_exact.

Theorem C64_backup_exact : forall hash sku channel t c sk ch, well_formed t -> sectors_stored t -> count_topology_components hash sku channel t = Ok (c, sk, ch) ->
  card (has_backup t) (active_cns_with_backup_dns c).
Proof. exact backup_counts. Qed.
Print Assumptions C64_backup_exact.

Theorem C64_channel_occupancy_exact : forall hash sku channel t c sk ch, well_formed t -> both_ways_match channel t -> count_topology_components hash sku channel t = Ok (c, sk, ch) ->
  forall x n, dget ch x = Some n <-> n > 0 /\ card (on_channel channel t x) n.
Proof. exact channel_counts. Qed.
Print Assumptions C64_channel_occupancy_exact.

Theorem C64_report_returns : forall hash sku channel t, well_formed t ->
  (channels_match channel t -> exists r, count_topology_components hash sku channel t = Ok r) /\
  (~ channels_match channel t -> count_topology_components hash sku channel t = Err TopologyExn).
Proof. exact (fun h s c t W => report_returns h s c t W). Qed.
Print Assumptions C64_report_returns.
