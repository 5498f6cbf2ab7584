(** Proofs for C64: the fields of the report. *)
From Coq Require Import ZArith.
From Verif Require Import Base Dict TopologyModel TopologySpec GraphModel GraphSpec GraphProofs DeploySpec CountModel CountSpec CountProofs CountMainProofs.

Section Report.
Variables (hash : Z * Z * Z -> string) (sku : string -> string) (channel : string -> Z) (t : topo) (c : counts) (sk : dict string nat) (ch : dict Z nat).
Ltac fields E := apply report_inv in E; destruct E as (h & Eh & Ech & -> & ->); cbn [active_sites total_sites active_pop_sites total_pop_sites active_dn_sites total_dn_sites active_cn_sites connectable_dn_sites connectable_cn_sites total_cn_sites active_cns_with_backup_dns active_demand_connected_pop_sites active_demand_connected_dn_sites active_demand_connected_cn_sites active_nodes total_nodes active_dn_nodes total_dn_nodes active_cn_nodes total_cn_nodes active_sectors total_sectors active_dn_sectors_on_pops active_dn_sectors_on_dns active_cn_sectors active_backhaul_links total_backhaul_links active_access_links total_access_links active_wired_links total_wired_links].
Ltac parts := repeat match goal with |- _ /\ _ => split end.
Lemma site_counts : well_formed t -> count_topology_components hash sku channel t = Ok (c, sk, ch) ->
  (card (a_site t true any) (active_sites c) /\ card (a_site t true (fun ty => ty = POP)) (active_pop_sites c) /\ card (a_site t true (fun ty => ty = DN)) (active_dn_sites c) /\ card (a_site t true (fun ty => ty = CN)) (active_cn_sites c)) /\
  (cardZ (a_place t false) (total_sites c) /\ cardZ (fun p => a_place t false (p, POP)) (total_pop_sites c) /\ cardZ (fun p => a_place t false (p, DN)) (total_dn_sites c) /\ cardZ (fun p => a_place t false (p, CN)) (total_cn_sites c)) /\
  (cardZ (fun p => a_place t true (p, DN)) (connectable_dn_sites c) /\ cardZ (fun p => a_place t true (p, CN)) (connectable_cn_sites c)) /\
  (card (fun i => a_site t true (fun ty => ty = POP) i /\ demanded t i) (active_demand_connected_pop_sites c) /\ card (fun i => a_site t true (fun ty => ty = DN) i /\ demanded t i) (active_demand_connected_dn_sites c) /\
   card (fun i => a_site t true (fun ty => ty = CN) i /\ demanded t i) (active_demand_connected_cn_sites c)) /\
  (forall x n, dget sk x = Some n <-> n > 0 /\ card (fun i => a_site t true any i /\ sku i = x) n).
Proof.
  intros W E. fields E.
  assert (H : (forall i n, dget h i = Some n <-> shortest t usable i n) /\ (forall i, dget h i = None <-> forall n, ~ route t usable i n)).
  { destruct (hops_exact_none t usable W) as (h' & Eh' & H). assert (h' = h) by congruence. now subst h'. }
  destruct H as [H1 H2].
  split; [parts; [now apply sites_sum|now apply sites_card|now apply sites_card|now apply sites_card]|].
  split; [parts; [now apply total_sum|now apply total_card|now apply total_card|now apply total_card]|].
  split; [parts; now apply connectable_card|].
  split; [parts; now apply demand_card|].
  intros x n. now apply sku_card.
Qed.
Lemma sector_counts : well_formed t -> count_topology_components hash sku channel t = Ok (c, sk, ch) ->
  (card (a_node t true) (active_nodes c) /\ card (a_node t false) (total_nodes c) /\
   card (fun q => a_node t true (q, false)) (active_dn_nodes c) /\ card (fun q => a_node t false (q, false)) (total_dn_nodes c) /\
   card (fun q => a_node t true (q, true)) (active_cn_nodes c) /\ card (fun q => a_node t false (q, true)) (total_cn_nodes c)) /\
  (card (a_sector t true any) (active_sectors c) /\ card (a_sector t false any) (total_sectors c) /\ card (a_sector t true (fun cn => cn = true)) (active_cn_sectors c) /\
   card (fun k => a_sector t true (fun cn => cn = false) k /\ on_type t POP k) (active_dn_sectors_on_pops c) /\
   cardZ (fun k => a_sector t true (fun cn => cn = false) k /\ ~ on_type t POP k) (active_dn_sectors_on_dns c)).
Proof.
  intros W E. fields E. parts; first [now apply nodes_sum | now apply nodes_card | now apply sectors_sum | now apply sectors_card | now apply pops_card | now apply dns_card].
Qed.
Lemma link_counts : well_formed t -> (forall p, no_dash (hash p)) -> count_topology_components hash sku channel t = Ok (c, sk, ch) ->
  card_up_to (a_link t true WIRELESS_BACKHAUL) (same_link hash t) (active_backhaul_links c) /\ card_up_to (a_link t false WIRELESS_BACKHAUL) (same_link hash t) (total_backhaul_links c) /\
  card_up_to (a_link t true WIRELESS_ACCESS) (same_link hash t) (active_access_links c) /\ card_up_to (a_link t false WIRELESS_ACCESS) (same_link hash t) (total_access_links c) /\
  card_up_to (a_link t true ETHERNET) (same_link hash t) (active_wired_links c) /\ card_up_to (a_link t false ETHERNET) (same_link hash t) (total_wired_links c).
Proof. intros W Hd E. fields E. parts; now apply links_card. Qed.
Lemma backup_counts : well_formed t -> sectors_stored t -> count_topology_components hash sku channel t = Ok (c, sk, ch) -> card (has_backup t) (active_cns_with_backup_dns c).
Proof. intros W Hs E. fields E. now apply backup_card. Qed.
Lemma channel_counts : well_formed t -> both_ways_match channel t -> count_topology_components hash sku channel t = Ok (c, sk, ch) ->
  forall x n, dget ch x = Some n <-> n > 0 /\ card (on_channel channel t x) n.
Proof. intros W Hb E. fields E. intros x n. now apply channels_exact. Qed.
End Report.
