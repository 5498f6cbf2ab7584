(** C70: the check of statuses before an optimization. *)
From Verif Require Import Base Dict TopologyModel TopologySpec ValidModel ValidSpec ValidProofs ValidExamples.

(** The only outcome other than success is the documented exception *)
Theorem C70_outcome : forall sec t, reachable t -> validate_status sec t = Ok tt \/ validate_status sec t = Err TopologyExn.
Proof. exact (fun sec t R => proj1 (status_valid sec t R)). Qed.
Print Assumptions C70_outcome.

(** What is accepted *)
Theorem C70_accepted_iff : forall sec t, reachable t ->
  (validate_status sec t = Ok tt <-> forall k l, link_stored t k l ->
     (l_type l <> WIRELESS_ACCESS -> exists r, reverse_of t l r)
     /\ forall r, reverse_of t l r -> l_status r = l_status l /\ suits sec t l).
Proof. exact (fun sec t R => proj2 (status_valid sec t R)). Qed.
Print Assumptions C70_accepted_iff.

(** Where clients do not transmit, this says nothing of the links to clients *)
Theorem C70_two_way_links : forall sec t, reachable t -> typed t ->
  (validate_status sec t = Ok tt <-> forall k l, link_stored t k l -> l_type l <> WIRELESS_ACCESS ->
     exists r, reverse_of t l r /\ l_status r = l_status l /\ suits sec t l).
Proof. exact access_unchecked. Qed.
Print Assumptions C70_two_way_links.

(** Not every link of an accepted topology suits its ends *)
Theorem C70_accepted_suits_refuted : exists sec t k l, reachable t /\ typed t /\ validate_status sec t = Ok tt /\ link_stored t k l
  /\ l_status l = PROPOSED /\ ~ suits sec t l.
Proof. exact client_accepted. Qed.
Print Assumptions C70_accepted_suits_refuted.

(** A deployed wired link, which has no sectors, is always refused *)
Theorem C70_wired_link : forall sec t k l, reachable t -> typed t -> link_stored t k l -> l_wireless l = false -> deployed (l_status l) ->
  l_sectors l = None -> validate_status sec t = Err TopologyExn.
Proof. exact wired_refused. Qed.
Print Assumptions C70_wired_link.

(** So consistent topologies are not always accepted *)
Theorem C70_consistent_accepted_refuted : exists sec t, reachable t /\ typed t /\ validate_status sec t = Err TopologyExn
  /\ (forall k l, link_stored t k l -> l_wireless l = false /\ l_status l = EXISTING
       /\ (exists r, reverse_of t l r /\ l_status r = EXISTING) /\ end_sites t l (eq EXISTING))
  /\ exists k l, link_stored t k l.
Proof. exact wired_network_refused. Qed.
Print Assumptions C70_consistent_accepted_refuted.
