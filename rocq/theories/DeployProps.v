(** C35: deployment rule violations are exact. *)
From Coq Require Import QArith.
From Verif Require Import Base Dict TopologyModel TopologySpec GraphSpec DeployModel DeploySpec DeployProofs DeployLimitProofs DeployExamples.
Local Open Scope list_scope.

Theorem C35_angle_pairs_exact : forall geom channel diff_limit nf_limit nf_ratio act t D N,
  well_formed t -> same_in_both_orders geom -> find_angle_violating_link_pairs geom channel diff_limit nf_limit nf_ratio act t = Ok (D, N) ->
  (forall q, In q D <-> breaks geom channel act t (fun angle _ => (angle <= diff_limit)%Q) q) /\
  (forall q, In q N <-> breaks geom channel act t (fun angle ratio => (diff_limit < angle)%Q /\ (angle <= nf_limit)%Q /\ (nf_ratio <= ratio)%Q) q) /\ NoDup D /\ NoDup N.
Proof. exact (fun g c dl nl nr act t D N W S => angles_exact g c dl nl nr act t W S D N). Qed.
Print Assumptions C35_angle_pairs_exact.

Theorem C35_angle_check_returns : forall geom channel diff_limit nf_limit nf_ratio act t,
  well_formed t -> same_in_both_orders geom ->
  ((exists r, find_angle_violating_link_pairs geom channel diff_limit nf_limit nf_ratio act t = Ok r) <-> measurable geom act t).
Proof. exact angles_return. Qed.
Print Assumptions C35_angle_check_returns.

Theorem C35_angle_check_missing_sector_refuted : exists geom channel t, reachable t /\ same_in_both_orders geom /\ (forall i a b, exists g, geom i a b = Ok g) /\
  find_angle_violating_link_pairs geom channel 25 45 2 true t = Err PyTypeError.
Proof. exact no_sector_raises. Qed.
Print Assumptions C35_angle_check_missing_sector_refuted.

Theorem C35_link_ids_exact : forall t l r, reachable t -> get_violating_link_ids t l = Ok r -> NoDup r /\
  forall x, In x r <-> exists i j k li, In (i, j, k) l /\ link_stored t x li /\
    ((l_tx li = i /\ (l_rx li = j \/ l_rx li = k)) \/ (l_rx li = i /\ (l_tx li = j \/ l_tx li = k))).
Proof. exact link_ids_exact. Qed.
Print Assumptions C35_link_ids_exact.

Theorem C35_sector_limits_exact : forall t dn_dn dn_total, well_formed t -> sectors_stored t ->
  exists r, find_sector_limit_violations t dn_dn dn_total = Ok r /\ dwf r /\
  (forall s, (exists l, dget r s = Some l) <-> over_limit t dn_dn dn_total s) /\
  (forall s l, dget r s = Some l -> NoDup l /\ forall x, In x l <-> linked_sector t s x).
Proof. exact (fun t a b W S => limits_exact t W S a b). Qed.
Print Assumptions C35_sector_limits_exact.

Theorem C35_listed_receivers_active_refuted : exists t r s l x, reachable t /\ sectors_stored t /\ find_sector_limit_violations t 0 5 = Ok r /\ dget r s = Some l /\ In x l /\
  ~ exists k li a b, link_stored t k li /\ is_active (l_status li) /\ l_sectors li = Some (a, b) /\ key_id a = s /\ key_id b = x.
Proof. exact listed_without_link. Qed.
Print Assumptions C35_listed_receivers_active_refuted.
