(** C39: applying a solution to the topology. *)
From Verif Require Import Base Dict TopologyModel TopologySpec GraphSpec ApplyModel ApplySpec ApplyProofs ApplyMainProofs ApplyExamples.

(** C39: it returns exactly when the plan fits the topology; otherwise an optimizer or topology exception is raised. *)
Theorem C39_returns_iff_fits : forall p t, well_formed t ->
  (fst (update_topology_with_solution p t) = Ok tt <-> fits p t) /\
  (~ fits p t -> fst (update_topology_with_solution p t) = Err OptExn \/ fst (update_topology_with_solution p t) = Err TopologyExn).
Proof. exact returns_iff. Qed.
Print Assumptions C39_returns_iff_fits.

(** C39: the result is the topology as planned - chosen components proposed, the others not, existing, unavailable and
    unreachable ones untouched - without the proposed parts that are cut off from all POPs. *)
Theorem C39_applied_exactly : forall p t, well_formed t -> forall t', update_topology_with_solution p t = (Ok tt, t') ->
  exists t1, as_planned p t t1 /\ trimmed t1 t'.
Proof. exact applied. Qed.
Print Assumptions C39_applied_exactly.

(** C39: afterwards active links and sectors have active sites. *)
Theorem C39_consistent : forall p t t', well_formed t -> existing_supported t -> update_topology_with_solution p t = (Ok tt, t') -> consistent t'.
Proof. exact consistent_after. Qed.
Print Assumptions C39_consistent.

(** C39: every proposed site that has a sector is reached from a POP over active sites and links. *)
Theorem C39_connected_partial : forall p t t' i s, well_formed t -> update_topology_with_solution p t = (Ok tt, t') ->
  dget (t_sites t') i = Some s -> s_status s = PROPOSED -> has_sectors t' i -> exists n, route t' in_use i n.
Proof. exact connected. Qed.
Print Assumptions C39_connected_partial.

(** C39 is false for a site without sectors: it stays proposed although nothing reaches it. *)
Theorem C39_connected_refuted : exists p t t' i s, reachable t /\ update_topology_with_solution p t = (Ok tt, t') /\
  dget (t_sites t') i = Some s /\ s_status s = PROPOSED /\ disconnected t' i.
Proof. exact stays_disconnected. Qed.
Print Assumptions C39_connected_refuted.

(** C39 is false for the sectors of a proposed link between disconnected existing sites: they are switched off, the link is not. *)
Theorem C39_link_without_sectors_refuted : exists p t t' k l a b, reachable t /\ existing_supported t /\ update_topology_with_solution p t = (Ok tt, t') /\
  dget (t_links t') k = Some l /\ l_status l = PROPOSED /\ l_sectors l = Some (a, b) /\
  sector_status_of t' (key_id a) = Some CANDIDATE /\ sector_status_of t' (key_id b) = Some CANDIDATE.
Proof. exact sectorless_link. Qed.
Print Assumptions C39_link_without_sectors_refuted.

(** C39: every sector gets the channel the plan gives it, or none. *)
Theorem C39_channels_exact : forall p t k, dget (channels p t) k = match dget (t_sectors t) k with
  | Some x => Some (match dget (p_channels p) (x_site x, k) with Some c => c | None => (-1)%Z end) | None => None end.
Proof. exact channels_exact. Qed.
Print Assumptions C39_channels_exact.
