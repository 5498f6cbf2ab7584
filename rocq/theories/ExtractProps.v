(** Property theorems on the plan read from a solver's answer: C16, C50-C52; vocabulary in IlpSpec.v and ExtractSpec.v. *)
From Coq Require Import QArith.
From Verif Require Import Base Dict TopologyModel TopologySpec GraphSpec SetupModel IlpModel IlpSpec IlpProofs PruneModel PruneSpec ExtractModel ExtractSpec ExtractProofs IlpExamples ExtractExamples.
Local Open Scope Q_scope.

(** C16: every selected POP or DN is odd or even, never both, and an unselected one has no polarity *)
Theorem C16_planned_sites_have_one_polarity : forall ps at_ t I g adv P v common o i,
  well_formed t -> names_ok at_ t -> network ps at_ t = Ok I -> site_problem g adv I = Ok P -> feasible P v -> sectors_present t ->
  extract common I v = Ok (Some o) ->
  p_ignore_polarities ps = false -> backhaul_site t i ->
  (site_on o i -> is_odd o i \/ is_even o i) /\ (site_off o i -> no_polarity o i).
Proof. intros until o. intros. destruct (extract_planning ps at_ t I g adv P v) with (common := common) (o := o) as (st & Hp); auto. match goal with Hi : p_ignore_polarities ps = false, Hb : backhaul_site t i |- _ => destruct (plan_polarity ps at_ t I g adv P v ltac:(assumption) ltac:(assumption) ltac:(assumption) ltac:(assumption) ltac:(assumption) o st Hp i Hi Hb) as (A & B) end. split; [intros Hon; destruct (A Hon) as [(X & _)|(X & _)]; auto|exact B]. Qed.
Print Assumptions C16_planned_sites_have_one_polarity.
Theorem C16_planned_links_join_opposite_polarities : forall ps at_ t I g adv P v common o k l,
  well_formed t -> names_ok at_ t -> network ps at_ t = Ok I -> site_problem g adv I = Ok P -> feasible P v -> sectors_present t ->
  extract common I v = Ok (Some o) ->
  p_ignore_polarities ps = false -> link_stored t k l -> link_on o l -> l_wireless l = true -> backhaul_site t (l_tx l) -> backhaul_site t (l_rx l) ->
  (is_odd o (l_tx l) /\ is_even o (l_rx l)) \/ (is_even o (l_tx l) /\ is_odd o (l_rx l)).
Proof. intros until o. intros. destruct (extract_planning ps at_ t I g adv P v) with (common := common) (o := o) as (st & Hp); auto. eapply plan_opposite; eauto. Qed.
Print Assumptions C16_planned_links_join_opposite_polarities.
(** C50 *)
Theorem C50_planned_sites_were_selected : forall ps at_ t I g adv P v common o i,
  well_formed t -> names_ok at_ t -> network ps at_ t = Ok I -> site_problem g adv I = Ok P -> feasible P v -> sectors_present t ->
  extract common I v = Ok (Some o) ->
  site_stored t i -> site_off o i \/ (site_on o i /\ selected v i).
Proof. intros until o. intros. destruct (extract_planning ps at_ t I g adv P v) with (common := common) (o := o) as (st & Hp); auto. eapply plan_binary; eauto. Qed.
Print Assumptions C50_planned_sites_were_selected.
Theorem C50_planned_links_have_what_they_need : forall ps at_ t I g adv P v common o k l,
  well_formed t -> names_ok at_ t -> network ps at_ t = Ok I -> site_problem g adv I = Ok P -> feasible P v -> sectors_present t ->
  extract common I v = Ok (Some o) ->
  link_stored t k l -> link_off o l \/
  (link_on o l /\ site_on o (l_tx l) /\ site_on o (l_rx l) /\ 0 < a_cap at_ (l_tx l, l_rx l) /\ l_status l <> UNAVAILABLE /\ l_status l <> UNREACHABLE /\
   (l_wireless l = true -> exists a b x y, l_sectors l = Some (a, b) /\ sector_stored t (key_id a) x /\ x_site x = l_tx l /\ sector_on o x /\
      sector_stored t (key_id b) y /\ x_site y = l_rx l /\ sector_on o y)).
Proof. intros until o. intros. destruct (extract_planning ps at_ t I g adv P v) with (common := common) (o := o) as (st & Hp); auto. match goal with El : link_stored t k l |- _ => destruct (plan_link at_ t I v o st Hp k l) as [X|X]; auto end. right. split; [exact X|]. eapply plan_link_on; eauto. Qed.
Print Assumptions C50_planned_links_have_what_they_need.
Theorem C50_flow_only_on_planned_links : forall ps at_ t I g adv P v common o k l,
  well_formed t -> names_ok at_ t -> network ps at_ t = Ok I -> site_problem g adv I = Ok P -> feasible P v -> sectors_present t ->
  extract common I v = Ok (Some o) ->
  link_stored t k l -> epsilon < planned o (l_tx l, l_rx l) -> link_on o l.
Proof. intros until o. intros. destruct (extract_planning ps at_ t I g adv P v) with (common := common) (o := o) as (st & Hp); auto. eapply plan_carries; eauto. Qed.
Print Assumptions C50_flow_only_on_planned_links.
Theorem C50_planned_sites_are_used : forall ps at_ t I g adv P v common o i,
  well_formed t -> names_ok at_ t -> network ps at_ t = Ok I -> site_problem g adv I = Ok P -> feasible P v -> sectors_present t ->
  extract common I v = Ok (Some o) ->
  site_stored t i -> site_on o i ->
  (exists k l, link_stored t k l /\ link_on o l /\ (l_tx l = i \/ l_rx l = i)) \/ serves t i.
Proof. intros until o. intros. destruct (extract_planning ps at_ t I g adv P v) with (common := common) (o := o) as (st & Hp); auto. destruct (PL_used _ _ _ _ _ _ Hp i) as [(k & l & (El & Eo) & X)|X]; auto. left. exists k, l. auto. Qed.
Print Assumptions C50_planned_sites_are_used.
Theorem C50_sectors_follow_their_links : forall ps at_ t I g adv P v common o k x,
  well_formed t -> names_ok at_ t -> network ps at_ t = Ok I -> site_problem g adv I = Ok P -> feasible P v -> sectors_present t ->
  extract common I v = Ok (Some o) ->
  sector_stored t k x ->
  (sector_on o x /\ exists k' l, link_stored t k' l /\ link_on o l /\ uses_node t l (node_of x)) \/
  (sector_off o x /\ forall k' l, link_stored t k' l -> uses_node t l (node_of x) -> ~ link_on o l).
Proof. intros until o. intros. destruct (extract_planning ps at_ t I g adv P v) with (common := common) (o := o) as (st & Hp); auto. destruct (PL_sector _ _ _ _ _ _ Hp k x) as [(X & k' & l & (El & Eo) & U)|(X & U)]; auto; [left; split; [exact X|]; exists k', l; auto|right; split; [exact X|]; intros k' l El Un Eo; apply U; exists k', l; split; [split|]; auto]. Qed.
Print Assumptions C50_sectors_follow_their_links.
Theorem C50_planned_flow_is_acyclic : forall ps at_ t I g adv P v common o,
  well_formed t -> names_ok at_ t -> network ps at_ t = Ok I -> site_problem g adv I = Ok P -> feasible P v -> sectors_present t ->
  extract common I v = Ok (Some o) ->
  acyclic_above (o_flow o) epsilon /\
  forall e, flow_edge at_ t e -> 0 <= planned o e <= flow v e.
Proof. intros until o. intros. destruct (extract_planning ps at_ t I g adv P v) with (common := common) (o := o) as (st & Hp); auto. split; [exact (PL_acyclic _ _ _ _ _ _ Hp)|]. intros e He. eapply planned_flow; eauto. eapply desc; eauto. Qed.
Print Assumptions C50_planned_flow_is_acyclic.
Theorem C50_planned_flow_is_conserved : forall ps at_ t I g adv P v common o i ei eo,
  well_formed t -> names_ok at_ t -> network ps at_ t = Ok I -> site_problem g adv I = Ok P -> feasible P v -> sectors_present t ->
  extract common I v = Ok (Some o) ->
  site_stored t i -> into at_ t i ei -> out_of at_ t i eo -> total (planned o) ei == total (planned o) eo.
Proof. intros until o. intros. destruct (extract_planning ps at_ t I g adv P v) with (common := common) (o := o) as (st & Hp); auto. eapply plan_conserves; eauto. Qed.
Print Assumptions C50_planned_flow_is_conserved.
Theorem C50_consumers_receive_demand_minus_shortage : forall ps at_ t I g adv P v common o n ei dem,
  well_formed t -> names_ok at_ t -> network ps at_ t = Ok I -> site_problem g adv I = Ok P -> feasible P v -> sectors_present t ->
  extract common I v = Ok (Some o) ->
  (forall n, consumer at_ t n -> wants ps at_ t n (dem n)) -> consumer at_ t n -> into at_ t n ei ->
  total (planned o) ei == dem n - missing o n /\ 0 <= missing o n <= dem n.
Proof. intros until o. intros. destruct (extract_planning ps at_ t I g adv P v) with (common := common) (o := o) as (st & Hp); auto. eapply plan_receives; eauto. Qed.
Print Assumptions C50_consumers_receive_demand_minus_shortage.
(** C51 *)
Theorem C51_cost_is_the_price_of_the_plan : forall ps at_ t I g adv P v common o is_ ns,
  well_formed t -> names_ok at_ t -> network ps at_ t = Ok I -> site_problem g adv I = Ok P -> feasible P v -> sectors_present t ->
  extract common I v = Ok (Some o) ->
  lists is_ (pays_site t o) -> lists ns (pays_node t o) ->
  o_cost o == total (site_price ps t) is_ + total (fun n => a_node_capex at_ (fst n)) ns.
Proof. intros until o. intros. destruct (extract_planning ps at_ t I g adv P v) with (common := common) (o := o) as (st & Hp); auto. eapply plan_cost; eauto. Qed.
Print Assumptions C51_cost_is_the_price_of_the_plan.
Theorem C51_plan_within_budget : forall ps at_ t I g adv P v common o,
  well_formed t -> names_ok at_ t -> network ps at_ t = Ok I -> site_problem g adv I = Ok P -> feasible P v -> sectors_present t ->
  extract common I v = Ok (Some o) ->
  g = CoverageUnderCost -> (forall ty, 0 <= p_capex ps ty) -> (forall i, 0 <= a_node_capex at_ i) ->
  o_cost o <= p_budget ps.
Proof. intros until o. intros. destruct (extract_planning ps at_ t I g adv P v) with (common := common) (o := o) as (st & Hp); auto. eapply plan_within_budget; eauto. Qed.
Print Assumptions C51_plan_within_budget.
(** C52 *)
Theorem C52_shortage_within_coverage : forall ps at_ t I g adv P v common o cs dem,
  well_formed t -> names_ok at_ t -> network ps at_ t = Ok I -> site_problem g adv I = Ok P -> feasible P v -> sectors_present t ->
  extract common I v = Ok (Some o) ->
  g = CostUnderCoverage -> lists cs (consumer at_ t) -> (forall n, consumer at_ t n -> wants ps at_ t n (dem n)) ->
  total (missing o) cs <= (1 - p_coverage ps) * total dem cs.
Proof. intros until o. intros. destruct (extract_planning ps at_ t I g adv P v) with (common := common) (o := o) as (st & Hp); auto. eapply plan_coverage; eauto. Qed.
Print Assumptions C52_shortage_within_coverage.
Theorem C52_delivered_flow_reaches_coverage : forall ps at_ t I g adv P v common o cs dem feed,
  well_formed t -> names_ok at_ t -> network ps at_ t = Ok I -> site_problem g adv I = Ok P -> feasible P v -> sectors_present t ->
  extract common I v = Ok (Some o) ->
  g = CostUnderCoverage -> lists cs (consumer at_ t) -> (forall n, consumer at_ t n -> wants ps at_ t n (dem n)) ->
  (forall n, In n cs -> into at_ t n (feed n)) ->
  p_coverage ps * total dem cs <= total (fun n => total (planned o) (feed n)) cs.
Proof. intros until o. intros. destruct (extract_planning ps at_ t I g adv P v) with (common := common) (o := o) as (st & Hp); auto. eapply plan_delivers; eauto. Qed.
Print Assumptions C52_delivered_flow_reaches_coverage.
(** reading the answer never fails *)
Theorem C50_reading_a_plan_succeeds : forall ps at_ t I g adv P v,
  well_formed t -> names_ok at_ t -> network ps at_ t = Ok I -> site_problem g adv I = Ok P -> feasible P v -> sectors_present t ->
  exists o, extract None I v = Ok o.
Proof. intros. eapply extract_total; eauto. Qed.
Print Assumptions C50_reading_a_plan_succeeds.

(** The network of C16_C19_hypotheses_met: the plan uses two DNs, costs 30 and delivers everything. *)
Example C50_C52_hypotheses_met : forall g, In g ex_goals -> well_formed ex_topo /\ names_ok ex_attrs ex_topo /\
  network ex_params ex_attrs ex_topo = Ok ex_inst /\ site_problem g [] ex_inst = Ok (ex_problem g) /\ feasible (ex_problem g) ex_v /\
  sectors_present ex_topo /\ extract None ex_inst ex_v = Ok (Some ex_plan) /\
  site_on ex_plan "d" /\ site_off ex_plan "c" /\ is_odd ex_plan "d" /\ is_even ex_plan "e" /\
  epsilon < planned ex_plan ("d", "e")%string /\ o_cost ex_plan == 30 /\ missing ex_plan "z" == 0.
Proof.
  intros g Hg. split; [exact ex_wf|]. split; [exact ex_names|]. split; [exact ex_network|]. split; [now apply ex_site_problem|]. split; [now apply ex_feasible|].
  split; [exact ex_sectors|]. split; [exact ex_extract|]. repeat split; vm_compute; reflexivity.
Qed.
