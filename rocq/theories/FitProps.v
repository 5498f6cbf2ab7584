(** C79: the answers of a site-selection problem are the good plans. *)
From Coq Require Import QArith.
From Verif Require GraphProofs.
From Verif Require Import Base Dict TopologyModel TopologySpec GraphSpec SetupModel IlpModel IlpSpec ExtractSpec IlpExamples SolveSpec SolveExamples ValidModel ValidSpec FitSpec FitAnswerProofs FitExamples.
Local Open Scope Q_scope.

(** No good plan is excluded. *)
Theorem C79_good_plans_are_answers ps at_ t I g adversarial P dem all v : well_formed t -> names_ok at_ t -> network ps at_ t = Ok I -> demands ps at_ t dem all ->
  site_problem g adversarial I = Ok P -> good_plan ps at_ t adversarial dem all v -> goal_met ps at_ t dem all g v -> feasible P v.
Proof. intros Hw Hn HI Hd. exact (good_answers ps at_ t I Hw Hn HI adversarial dem all Hd g P v). Qed.
Print Assumptions C79_good_plans_are_answers.
(** And nothing else is let in. *)
Theorem C79_answers_are_the_good_plans ps at_ t I g adversarial P dem all v : well_formed t -> names_ok at_ t -> network ps at_ t = Ok I -> demands ps at_ t dem all ->
  0 <= p_pop_capacity ps -> active_links_sound t -> site_problem g adversarial I = Ok P ->
  (feasible P v <-> good_plan ps at_ t adversarial dem all v /\ goal_met ps at_ t dem all g v).
Proof. intros Hw Hn HI Hd. exact (exactly_good ps at_ t I Hw Hn HI adversarial dem all Hd g P v). Qed.
Print Assumptions C79_answers_are_the_good_plans.
(** So it is after the check of statuses, if the links to clients are as the check requires of the others. *)
Theorem C79_answers_after_validation sec ps at_ t I g adversarial P dem all v : reachable t -> typed t -> validate_status sec t = Ok tt ->
  (forall k l i s, link_stored t k l -> active_link l -> l_type l = WIRELESS_ACCESS -> touches l i -> dget (t_sites t) i = Some s -> deployed (s_status s)) ->
  names_ok at_ t -> network ps at_ t = Ok I -> demands ps at_ t dem all -> 0 <= p_pop_capacity ps -> site_problem g adversarial I = Ok P ->
  (feasible P v <-> good_plan ps at_ t adversarial dem all v /\ goal_met ps at_ t dem all g v).
Proof. exact (validated_answers sec ps at_ t I g adversarial P dem all v). Qed.
Print Assumptions C79_answers_after_validation.
(** A lone candidate client at the end of an active link may be left out, although the check of statuses passed. *)
Theorem C79_ends_of_active_links_are_kept_refuted : exists ps at_ sec t I P v k l i s, reachable t /\ typed t /\ validate_status sec t = Ok tt /\ names_ok at_ t /\ network ps at_ t = Ok I /\ sane ps at_ t /\
  site_problem CoverageUnderCost [] I = Ok P /\ feasible P v /\
  link_stored t k l /\ active_link l /\ touches l i /\ dget (t_sites t) i = Some s /\ (forall j sj, dget (t_sites t) j = Some sj -> s_loc sj = s_loc s -> ~ selected v j).
Proof. exact end_left_out. Qed.
Print Assumptions C79_ends_of_active_links_are_kept_refuted.

(** The hypotheses are met, by a plan that serves a consumer through three sites. *)
Example C79_met : exists dem all, demands ex_params ex_attrs ex_topo dem all /\
  forall g, In g ex_goals -> good_plan ex_params ex_attrs ex_topo [] dem all ex_v /\ goal_met ex_params ex_attrs ex_topo dem all g ex_v.
Proof.
  destruct (demands_known _ _ _ _ ex_wf ex_names ex_network) as (dem & all & H). exists dem, all. split; [exact H|]. intros g Hg.
  apply (C79_answers_are_the_good_plans _ _ _ _ g [] _ dem all ex_v ex_wf ex_names ex_network H (proj1 (ex_sane ex_topo)) ex_sound (ex_site_problem g Hg)). exact (ex_feasible g Hg).
Qed.
Example C79_met_after_validation : exists dem all, demands ex_params ex_attrs kept_topo dem all /\
  good_plan ex_params ex_attrs kept_topo [] dem all kept_v /\ goal_met ex_params ex_attrs kept_topo dem all CostUnderCoverage kept_v.
Proof.
  destruct (demands_known _ _ _ _ (GraphProofs.wf_reachable _ kept_reachable) kept_names kept_network) as (dem & all & H). exists dem, all. split; [exact H|].
  apply (C79_answers_after_validation _ _ _ _ _ CostUnderCoverage [] _ dem all kept_v kept_reachable kept_typed kept_valid kept_clients kept_names kept_network H (proj1 (ex_sane kept_topo)) kept_posed). exact kept_feasible.
Qed.
