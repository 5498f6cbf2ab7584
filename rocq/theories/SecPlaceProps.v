(** Property theorems C42, C58 and C59; vocabulary in SecPlaceSpec.v. *)
From Coq Require Import QArith Qabs Qminmax Lqa.
From Verif Require Import Base SecLinkSpec SecPlaceModel SecPlaceSpec SecPlaceFinalProofs SecEquidModel SecEquidProofs SecPlaceExamples.
Local Open Scope Q_scope.
Local Open Scope string_scope.
Local Open Scope list_scope.

(** The sectors returned are those of nodes that do not overlap and whose sectors see no more links than
    allowed; no way to place all the nodes sees more links, and none that sees as many deviates less.
    Missing: links that must share a sector, or must not (false in general, below). *)
Theorem C42_best_placement_partial : forall nbs number_of_nodes nspn hsr dn_dn_limit dn_total_limit weight too_close sectors,
  wf_site nbs number_of_nodes nspn hsr weight -> (forall i j, too_close i j = false) ->
  find_best_sectors nbs number_of_nodes nspn hsr dn_dn_limit dn_total_limit weight too_close None = Ok sectors ->
  (exists k nodes, (k <= number_of_nodes)%nat /\ placement nbs nspn hsr dn_dn_limit dn_total_limit k nodes sectors) /\
  forall nodes' sectors', placement nbs nspn hsr dn_dn_limit dn_total_limit number_of_nodes nodes' sectors' ->
    (seen nbs hsr (List.concat sectors') <= seen nbs hsr (List.concat sectors))%nat /\
    (seen nbs hsr (List.concat sectors') = seen nbs hsr (List.concat sectors) ->
     deviation nbs hsr weight (List.concat sectors) <= deviation nbs hsr weight (List.concat sectors')).
Proof. intros. eapply fbs_best; eauto. Qed.
Print Assumptions C42_best_placement_partial.
(** Two links on different channels: no sectors are returned, though those of one node see one link each. *)
Theorem C42_best_placement_channels_refuted : exists nbs number_of_nodes nspn hsr weight channels nodes sectors,
  wf_site nbs number_of_nodes nspn hsr weight /\ List.length channels = List.length nbs /\
  find_best_sectors nbs number_of_nodes nspn hsr None None weight (fun _ _ => false) (Some channels) = Ok [] /\
  placement nbs nspn hsr None None number_of_nodes nodes sectors /\ seen nbs hsr (List.concat sectors) = List.length nbs /\
  forall s, In s (List.concat sectors) -> List.length (filter (sees hsr s) nbs) = 1%nat.
Proof. exact channels_lost. Qed.
Print Assumptions C42_best_placement_channels_refuted.

(** Sectors are found when the nodes, each taking its angle rounded up to a multiple of 3 degrees, fit
    around.  Missing: the nodes whose angles alone fit around (false in general, below), and limits. *)
Theorem C58_placing_succeeds_partial : forall nbs number_of_nodes nspn hsr weight too_close channels m,
  wf_site nbs number_of_nodes nspn hsr weight -> (match channels with Some l => (List.length nbs <= List.length l)%nat | None => True end) ->
  hsr * qnat nspn <= 3 * qnat m -> (number_of_nodes * m <= 120)%nat ->
  exists sectors, find_best_sectors nbs number_of_nodes nspn hsr None None weight too_close channels = Ok sectors.
Proof. intros. eapply fbs_succeeds; eauto. Qed.
Print Assumptions C58_placing_succeeds_partial.
(** A device accepted by the configuration for which placing fails. *)
Theorem C58_placing_succeeds_refuted : exists nbs number_of_nodes nspn hsr,
  wf_site nbs number_of_nodes nspn hsr None /\
  find_best_sectors nbs number_of_nodes nspn hsr None None None (fun _ _ => false) None = Err OptExn.
Proof. exists one, 9%nat, 1%nat, 40. exact (conj one_wf nine_fails). Qed.
Print Assumptions C58_placing_succeeds_refuted.
(** exactly those whose rounded angles do not fit *)
Theorem C58_placing_fails : forall nbs number_of_nodes nspn hsr weight too_close m,
  wf_site nbs number_of_nodes nspn hsr weight -> (0 < m)%nat -> 3 * (qnat m - 1) < hsr * qnat nspn -> (120 < number_of_nodes * m)%nat ->
  find_best_sectors nbs number_of_nodes nspn hsr None None weight too_close None = Err OptExn.
Proof. intros. eapply fbs_fails; eauto. reflexivity. Qed.
Print Assumptions C58_placing_fails.

(** The node of a client site is turned the best way, as long as no link is within half its angle of
    north.  Missing: those links (false in general, below). *)
Theorem C59_client_direction_partial : forall angles nspn hsr, 0 < hsr -> (1 <= nspn)%nat -> hsr * qnat nspn <= 360 -> angles <> [] ->
  (forall a, In a angles -> hsr * qnat nspn / 2 <= a /\ a < 360 - hsr * qnat nspn / 2) ->
  exists c l, position c /\ fan c hsr nspn l /\ find_best_equidistant_sectors angles 1 nspn hsr = Ok [l] /\
    forall d, position d -> client_cost (hsr * qnat nspn) angles c <= client_cost (hsr * qnat nspn) angles d.
Proof. intros. eapply client_best; eauto. Qed.
Print Assumptions C59_client_direction_partial.
Theorem C59_client_direction_succeeds : forall angles nspn hsr, 0 < hsr -> (1 <= nspn)%nat -> hsr * qnat nspn <= 360 -> angles <> [] ->
  exists l, find_best_equidistant_sectors angles 1 nspn hsr = Ok [l].
Proof. intros. eapply run_ok; eauto. Qed.
Print Assumptions C59_client_direction_succeeds.
(** Two links either side of north: the direction chosen misses one, and another sees both. *)
Theorem C59_client_direction_refuted : exists angles hsr c d l, 0 < hsr /\ hsr <= 360 /\ (forall a, In a angles -> direction a) /\
  find_best_equidistant_sectors angles 1 1 hsr = Ok [[l]] /\ l == c /\ position c /\ position d /\
  (exists a, In a angles /\ hsr / 2 < between c a) /\ (forall a, In a angles -> between d a < hsr / 2) /\
  client_cost hsr angles d < client_cost hsr angles c.
Proof. exact north_missed. Qed.
Print Assumptions C59_client_direction_refuted.
