(** Property theorems C77 (POPs for the chosen DNs); vocabulary in DupSpec.v. *)
From Coq Require Import ZArith.
From Verif Require Import Base Dict TopologyModel TopologySpec GraphSpec IlpExamples DupModel DupSpec DupMainProofs DupReturnProofs DupExamples.

(** Each chosen DN gets a candidate POP of its own with a copy of each sector and of each link to a site
    that is no POP; each demand of the DN is connected to the POP; nothing else changes.  A copy of a link
    into the DN takes its kind from some link out of a chosen DN. *)
Theorem C77_topology_with_the_new_pops_partial : forall pop_id, (forall i, no_dash (pop_id i)) -> forall t, reachable t -> forall decisions t',
  add_duplicate_pops pop_id t decisions = Ok t' -> well_formed t' /\ exists wireless, duplicated pop_id t decisions wireless t' /\ kind_taken t decisions wireless.
Proof. exact dup_exact. Qed.
Print Assumptions C77_topology_with_the_new_pops_partial.

(** If all links are wireless, so are the copies. *)
Theorem C77_copies_of_wireless_links : forall pop_id, (forall i, no_dash (pop_id i)) -> forall t, reachable t -> forall decisions t',
  add_duplicate_pops pop_id t decisions = Ok t' -> (forall k l, link_stored t k l -> l_wireless l = true) -> duplicated pop_id t decisions (fun _ => true) t'.
Proof. exact dup_wireless. Qed.
Print Assumptions C77_copies_of_wireless_links.

Theorem C77_new_pops_can_be_added : forall pop_id, (forall i, no_dash (pop_id i)) -> forall t, reachable t -> forall decisions,
  new_ids_free pop_id t decisions -> sectors_sound t -> neighbours_usable t decisions -> has_way_out t decisions -> exists t', add_duplicate_pops pop_id t decisions = Ok t'.
Proof. exact dup_returns. Qed.
Print Assumptions C77_new_pops_can_be_added.

(** A network that meets the hypotheses: DN d beside POP p becomes the POP dp, linked to DN e and CN c. *)
Example C77_hypotheses_met : (forall i, no_dash (pop_name i)) /\ reachable (du_topo CANDIDATE k_good) /\
  (new_ids_free pop_name (du_topo CANDIDATE k_good) du_dec /\ sectors_sound (du_topo CANDIDATE k_good) /\ neighbours_usable (du_topo CANDIDATE k_good) du_dec /\ has_way_out (du_topo CANDIDATE k_good) du_dec) /\
  add_duplicate_pops pop_name (du_topo CANDIDATE k_good) du_dec = Ok (du_result CANDIDATE k_good) /\
  dkeys (t_sites (du_result CANDIDATE k_good)) = ["p"; "d"; "e"; "f"; "c"; "dp"]%string /\
  dkeys (t_links (du_result CANDIDATE k_good)) = ["p-d"; "d-p"; "d-e"; "e-d"; "d-c"; "dp-e"; "dp-c"; "e-dp"]%string.
Proof. split; [exact pop_name_dashless|]. split; [apply du_reachable; now left|]. split; [exact du_good_needs|exact du_good]. Qed.

(** What a user may expect and does not get: an unavailable neighbour of a chosen DN makes the call fail,
    and so does a DN that only receives; beside a wired link the copy of a wireless link is wired. *)
Theorem C77_unavailable_neighbour_refuted : exists pop_id t decisions, reachable t /\ new_ids_free pop_id t decisions /\ sectors_sound t /\ has_way_out t decisions /\
  add_duplicate_pops pop_id t decisions = Err TopologyExn.
Proof. exists pop_name, (du_topo UNAVAILABLE k_unavailable), du_dec. exact du_unavailable. Qed.
Print Assumptions C77_unavailable_neighbour_refuted.
Theorem C77_receiving_only_refuted : exists pop_id t decisions, reachable t /\ new_ids_free pop_id t decisions /\ sectors_sound t /\ neighbours_usable t decisions /\
  add_duplicate_pops pop_id t decisions = Err PyNameError.
Proof. exists pop_name, (du_topo CANDIDATE k_oneway), du_dec. exact du_oneway. Qed.
Print Assumptions C77_receiving_only_refuted.
Theorem C77_wireless_link_copied_as_wired_refuted : exists pop_id t decisions t' d k l k' l', reachable t /\ (exists s, chosen t decisions d s) /\
  add_duplicate_pops pop_id t decisions = Ok t' /\ link_stored t k l /\ l_rx l = d /\ l_wireless l = true /\
  link_stored t' k' l' /\ l_tx l' = l_tx l /\ l_rx l' = pop_id d /\ l_wireless l' = false.
Proof.
  exists pop_name, (du_topo CANDIDATE k_wire), du_dec, (du_result CANDIDATE k_wire), "d"%string, "e-d"%string, (x_link "e" "d" false CANDIDATE), "e-dp"%string,
    (mkLink "e" "dp" false false (Some (x_key_ "e" false, x_key_ "dp" false)) CANDIDATE).
  split; [apply du_reachable; cbn [In]; tauto|]. split; [exact du_wire_chosen|]. split; [exact (proj1 du_wire)|]. split; [exact (proj1 (proj2 du_wire))|]. split; [reflexivity|]. split; [reflexivity|]. split; [exact (proj2 (proj2 du_wire))|]. split; [reflexivity|]. split; reflexivity.
Qed.
Print Assumptions C77_wireless_link_copied_as_wired_refuted.
