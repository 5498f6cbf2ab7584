(** Property theorems on redundancy: C75; vocabulary in RedunSpec.v. *)
From Coq Require Import QArith.
From Verif Require Import Base Dict TopologyModel TopologySpec GraphSpec SetupModel IlpModel IlpSpec ExtractModel ExtractSpec IlpExamples
  RedunModel RedunSpec RedunReadProofs RedunMainProofs RedunKeepProofs RedunSolveProofs RedunTopProofs RedunExamples.
Local Open Scope Q_scope.

(** a protected DN is served after every failure that weighs less than what was reserved for it *)
Theorem C75_plan_withstands_failures_within_its_margin : forall ps at_ t cs only R,
  well_formed t -> names_ok at_ t -> sectors_present t -> redundant_network ps at_ t cs only = Ok R ->
  forall sh P v o, skeleton R (Some sh) = Ok P -> rfeasible P v -> extract_redundancy R sh v = Ok o ->
  forall gone down d q, 0 <= c_pop cs -> 0 <= c_dn cs -> protected t d -> ~ In d gone -> dget sh d = Some q ->
  weight cs t gone down < c_sink cs - q -> served t o gone down d.
Proof. exact withstands. Qed.
Print Assumptions C75_plan_withstands_failures_within_its_margin.
(** without shortage, every level keeps its promise *)
Theorem C75_levels_keep_their_promise : forall ps at_ t cs only R lvl sh P v o gone down d,
  well_formed t -> names_ok at_ t -> sectors_present t ->
  level_caps lvl (active_pops t) = Some cs -> redundant_network ps at_ t cs only = Ok R ->
  skeleton R (Some sh) = Ok P -> rfeasible P v -> extract_redundancy R sh v = Ok o ->
  protected t d -> dget sh d = Some 0 -> promised lvl t gone down -> ~ In d gone -> served t o gone down d.
Proof. exact levels_hold. Qed.
Print Assumptions C75_levels_keep_their_promise.
Example C75_withstands_example : served rx_topo rx_plan ["p"%string] [] "d".
Proof.
  apply (levels_hold ex_params ex_attrs rx_topo rx_caps None rx_net LevelMedium rx_short rx_problem rx_v rx_plan ["p"%string] [] "d"
           rx_wf rx_names rx_sectors rx_level rx_net_ok rx_problem_ok rx_feasible rx_plan_ok rx_protected eq_refl).
  - split; [reflexivity|]. exists "p"%string. split; [reflexivity|]. right. split.
    + exact rx_several.
    + exact rx_pop.
  - intros [H|[]]. discriminate.
Qed.
(** ** The two solves *)
Theorem C75_first_solve_is_never_infeasible : forall ps at_ t cs only R,
  well_formed t -> names_ok at_ t -> redundant_network ps at_ t cs only = Ok R ->
  0 <= c_pop cs -> 0 <= c_dn cs -> 0 <= c_sink cs -> active_ends t -> one_per_place t -> (p_ignore_polarities ps = true \/ alternating t) ->
  exists P, skeleton R None = Ok P /\ rfeasible P (base_answer cs R).
Proof. exact first_solve. Qed.
Print Assumptions C75_first_solve_is_never_infeasible.
Example C75_first_solve_example : exists P, skeleton rx_net None = Ok P /\ rfeasible P (base_answer rx_caps rx_net).
Proof. apply (first_solve ex_params ex_attrs rx_topo rx_caps None rx_net rx_wf rx_names rx_net_ok); [discriminate|discriminate|discriminate|exact rx_ends|exact rx_places|right; exact rx_alternating]. Qed.
Theorem C75_second_solve_accepts_the_first_answer : forall ps at_ t cs only R,
  well_formed t -> names_ok at_ t -> redundant_network ps at_ t cs only = Ok R ->
  forall P v, skeleton R None = Ok P -> rfeasible P v -> exists P', skeleton R (Some (shortages R v)) = Ok P' /\ rfeasible P' v.
Proof. exact second_solve. Qed.
Print Assumptions C75_second_solve_accepts_the_first_answer.
Example C75_second_solve_example : rfeasible rx_first rx_v /\ shortages rx_net rx_v = rx_short.
Proof. split; [exact rx_first_feasible|vm_compute; reflexivity]. Qed.
(** ** The plan *)
Theorem C75_every_answer_can_be_read : forall ps at_ t cs only R sh v,
  well_formed t -> names_ok at_ t -> redundant_network ps at_ t cs only = Ok R ->
  exists o, extract_redundancy R sh v = Ok o /\ n_short o = sh /\
    (forall i, site_stored t i -> r_on o i \/ r_off o i) /\
    (forall k x, sector_stored t k x -> dget (n_sector o) (x_site x, k) = dget (n_site o) (x_site x)).
Proof. exact readable. Qed.
Print Assumptions C75_every_answer_can_be_read.
Theorem C75_planned_links_have_what_they_need : forall ps at_ t cs only R sh v o k l,
  well_formed t -> names_ok at_ t -> redundant_network ps at_ t cs only = Ok R ->
  extract_redundancy R sh v = Ok o -> link_stored t k l ->
  dget (n_link o) (l_tx l, l_rx l) = Some 0%Z \/
  (r_link_on o l /\ r_on o (l_tx l) /\ r_on o (l_rx l) /\ 0 < a_cap at_ (l_tx l, l_rx l) /\ l_status l <> UNAVAILABLE /\ l_status l <> UNREACHABLE /\
   (l_wireless l = true -> exists a b x y, l_sectors l = Some (a, b) /\ sector_stored t (key_id a) x /\ x_site x = l_tx l /\ sector_stored t (key_id b) y /\ x_site y = l_rx l)).
Proof. exact link_needs. Qed.
Print Assumptions C75_planned_links_have_what_they_need.
(** the POPs and DNs of the base network stay *)
Theorem C75_active_pops_and_dns_stay : forall ps at_ t cs only R,
  well_formed t -> names_ok at_ t -> redundant_network ps at_ t cs only = Ok R ->
  forall sh P v o, skeleton R (Some sh) = Ok P -> rfeasible P v -> extract_redundancy R sh v = Ok o -> active_ends t ->
  forall i, backhaul_site t i -> active_now t i -> r_on o i.
Proof. exact active_kept. Qed.
Print Assumptions C75_active_pops_and_dns_stay.
(** nothing is added but candidate DNs *)
Theorem C75_only_candidate_dns_are_added : forall ps at_ t cs only R,
  well_formed t -> names_ok at_ t -> redundant_network ps at_ t cs only = Ok R ->
  forall sh P v o, skeleton R (Some sh) = Ok P -> rfeasible P v -> extract_redundancy R sh v = Ok o -> active_ends t ->
  forall i, r_on o i -> active_now t i \/ exists s, dget (t_sites t) i = Some s /\ s_type s = DN /\ s_status s = CANDIDATE.
Proof. exact only_new_dns. Qed.
Print Assumptions C75_only_candidate_dns_are_added.
(** a CN of the base network stays unless a POP or DN stands in its place *)
Theorem C75_cns_give_way_only_to_pops_and_dns : forall ps at_ t cs only R,
  well_formed t -> names_ok at_ t -> redundant_network ps at_ t cs only = Ok R ->
  forall sh P v o, skeleton R (Some sh) = Ok P -> rfeasible P v -> extract_redundancy R sh v = Ok o -> active_ends t ->
  forall i s, 0 < p_pop_capacity ps -> dget (t_sites t) i = Some s -> s_type s = CN ->
  (r_on o i <-> active_now t i /\ forall j, colocated t i j -> backhaul_site t j -> ~ r_on o j).
Proof. exact cn_rule. Qed.
Print Assumptions C75_cns_give_way_only_to_pops_and_dns.
Theorem C75_planned_links_join_opposite_polarities : forall ps at_ t cs only R,
  well_formed t -> names_ok at_ t -> redundant_network ps at_ t cs only = Ok R ->
  forall sh P v o, skeleton R (Some sh) = Ok P -> rfeasible P v -> extract_redundancy R sh v = Ok o -> active_ends t ->
  forall k l, p_ignore_polarities ps = false -> (forall k l, link_stored t k l -> active_link l -> allowed_link only l) ->
  link_stored t k l -> l_wireless l = true -> backhaul_site t (l_tx l) -> backhaul_site t (l_rx l) -> r_link_on o l ->
  (r_is_odd o (l_tx l) /\ r_is_even o (l_rx l)) \/ (r_is_even o (l_tx l) /\ r_is_odd o (l_rx l)).
Proof. exact plan_polarity. Qed.
Print Assumptions C75_planned_links_join_opposite_polarities.
Example C75_plan_example : active_ends rx_topo /\ skeleton rx_net (Some rx_short) = Ok rx_problem /\ rfeasible rx_problem rx_v /\ extract_redundancy rx_net rx_short rx_v = Ok rx_plan /\
  map (dget (n_site rx_plan)) ["p"; "q"; "d"; "f"; "c"]%string = map Some [1; 1; 1; 1; 0]%Z /\ dget (n_link rx_plan) ("q", "d")%string = Some 1%Z /\ dget (n_link rx_plan) ("d", "c")%string = Some 0%Z.
Proof. split; [exact rx_ends|]. split; [exact rx_problem_ok|]. split; [exact rx_feasible|]. split; [exact rx_plan_ok|]. vm_compute. auto. Qed.
(** the step fails exactly when some DN in service has no usable backhaul link *)
Theorem C75_step_fails_exactly_for_cut_off_dns : forall ps at_ t cs only I, well_formed t -> names_ok at_ t -> network ps at_ t = Ok I ->
  ((forall d, protected t d -> usable_end at_ t only d) /\ (exists R, redundant_network ps at_ t cs only = Ok R)) \/
  ((exists d, protected t d /\ ~ usable_end at_ t only d) /\ redundant_network ps at_ t cs only = Err OptExn).
Proof. exact construction. Qed.
Print Assumptions C75_step_fails_exactly_for_cut_off_dns.
Example C75_cut_off_example : redundant_network ex_params ex_attrs cut_topo rx_caps None = Err OptExn /\ exists I, network ex_params ex_attrs cut_topo = Ok I.
Proof. vm_compute. eauto. Qed.
