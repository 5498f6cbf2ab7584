(** C34, C61, C62, C63: capital expenditure, POP capacity, co-located sites, sectors of one node. *)
From Coq Require Import QArith.
From Verif Require Import Base Dict TopologyModel TopologySpec GraphSpec OpsModel OpsSpec OpsProofs OpsPopProofs OpsColocProofs OpsExamples.
Local Open Scope Q_scope.

(** C34: when the sectors of each node agree, every active (proposed) site and node is paid once. *)
Theorem C34_capex_exact_partial : forall node_capex site_capex t, well_formed t ->
  (nodes_agree active_status t -> expenditure active_status node_capex site_capex t (fst (compute_capex node_capex site_capex t))) /\
  (nodes_agree (fun st => st = PROPOSED) t -> expenditure (fun st => st = PROPOSED) node_capex site_capex t (snd (compute_capex node_capex site_capex t))).
Proof. exact capex_exact. Qed.
Print Assumptions C34_capex_exact_partial.

(** C34: in particular after the sectors of each node have been set alike. *)
Theorem C34_capex_exact_after_completion : forall node_capex site_capex t t', well_formed t -> nodes_agree (fun st => st = EXISTING) t -> set_sector_status_in_same_node t = (Ok tt, t') ->
  expenditure active_status node_capex site_capex t' (fst (compute_capex node_capex site_capex t')) /\
  expenditure (fun st => st = PROPOSED) node_capex site_capex t' (snd (compute_capex node_capex site_capex t')).
Proof. exact capex_after. Qed.
Print Assumptions C34_capex_exact_after_completion.

(** C34: nothing is ever paid twice. *)
Theorem C34_capex_never_more : forall node_capex site_capex t q, well_formed t -> (forall i, 0 <= node_capex i) ->
  expenditure active_status node_capex site_capex t q -> fst (compute_capex node_capex site_capex t) <= q.
Proof. exact capex_below. Qed.
Print Assumptions C34_capex_never_more.
Theorem C34_proposed_capex_never_more : forall node_capex site_capex t q, well_formed t -> (forall i, 0 <= node_capex i) ->
  expenditure (fun st => st = PROPOSED) node_capex site_capex t q -> snd (compute_capex node_capex site_capex t) <= q.
Proof. exact capex_proposed_below. Qed.
Print Assumptions C34_proposed_capex_never_more.

(** C34 is false of a node whose first sector is inactive and whose second is active. *)
Theorem C34_capex_refuted : exists node_capex site_capex t, reachable t /\ (forall i, 0 <= node_capex i) /\
  ~ expenditure active_status node_capex site_capex t (fst (compute_capex node_capex site_capex t)).
Proof. exact mixed_node. Qed.
Print Assumptions C34_capex_refuted.

(** C63: setting the sectors of a node alike. *)
Theorem C63_returns_iff : forall t, well_formed t -> (fst (set_sector_status_in_same_node t) = Ok tt <-> node_settable t) /\
  (~ node_settable t -> fst (set_sector_status_in_same_node t) = Err TopologyExn).
Proof. exact same_node_returns. Qed.
Print Assumptions C63_returns_iff.
Theorem C63_nodes_completed : forall t, well_formed t -> forall t', set_sector_status_in_same_node t = (Ok tt, t') -> nodes_completed t t'.
Proof. exact same_node_exact. Qed.
Print Assumptions C63_nodes_completed.

(** C61: the POP capacity is the largest traffic that any schedule of the links sends. *)
Theorem C61_pop_capacity_is_the_maximum : forall capacity sf pop_capacity t ps, well_formed t -> (forall k, 0 <= capacity k) -> all_pops t ps ->
  exists m, max_pop_capacity capacity sf pop_capacity t = Ok m /\
  (forall share, schedule t sf share -> sent t sf capacity share pop_capacity ps <= m) /\
  (exists share, schedule t sf share /\ sent t sf capacity share pop_capacity ps == m).
Proof. exact max_pop_exact. Qed.
Print Assumptions C61_pop_capacity_is_the_maximum.

(** C62: exactly the sites that the active sites of their location exclude are removed. *)
Theorem C62_removed_exactly : forall t, well_formed t -> exists r, colocated_sites_to_remove t = Ok r /\ NoDup r /\
  forall i, In i r <-> exists s, dget (t_sites t) i = Some s /\ excluded t s.
Proof. exact removals_exact. Qed.
Print Assumptions C62_removed_exactly.
