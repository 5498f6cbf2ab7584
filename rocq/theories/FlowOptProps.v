(** Property theorems C53 on the flow reported for a planned network; vocabulary in IlpSpec.v and FlowOptSpec.v. *)
From Coq Require Import QArith.
From Verif Require Import Base Dict TopologyModel TopologySpec GraphSpec SetupModel IlpModel IlpSpec PruneModel PruneSpec FlowOptModel FlowOptSpec FlowOptProofs IlpExamples FlowOptExamples.
Local Open Scope Q_scope.

Theorem C53_flow_is_always_reported : forall ps at_ t I red con P v,
  well_formed t -> names_ok at_ t -> network ps at_ t = Ok I -> flow_problem red con t I = Ok P -> feasible P v ->
  exists o, extract_flow_solution red con t I v = Ok o.
Proof. intros. edestruct mextract as (o & d & E & _); eauto. Qed.
Print Assumptions C53_flow_is_always_reported.
Theorem C53_link_flow_within_capacity_times_share : forall ps at_ t I red con P v o k l,
  well_formed t -> names_ok at_ t -> network ps at_ t = Ok I -> flow_problem red con t I = Ok P -> feasible P v ->
  extract_flow_solution red con t I v = Ok o -> link_stored t k l ->
  0 <= carried o (l_tx l, l_rx l) <= (if red (l_tx l, l_rx l) then 0 else a_cap at_ (l_tx l, l_rx l)) * (if l_wireless l then share v 0 (l_tx l, l_rx l) else 1) /\
  (l_wireless l = true -> 0 <= share v 0 (l_tx l, l_rx l) <= 1).
Proof. intros. split; [eapply r_link; eauto|intros; eapply mshare; eauto]. Qed.
Print Assumptions C53_link_flow_within_capacity_times_share.
Theorem C53_only_links_of_the_plan_carry_flow : forall ps at_ t I red con P v o k l,
  well_formed t -> names_ok at_ t -> network ps at_ t = Ok I -> flow_problem red con t I = Ok P -> feasible P v ->
  extract_flow_solution red con t I v = Ok o -> link_stored t k l ->
  ~ in_network (l_status l) \/ red (l_tx l, l_rx l) = true -> carried o (l_tx l, l_rx l) == 0.
Proof. intros. eapply r_unused; eauto. Qed.
Print Assumptions C53_only_links_of_the_plan_carry_flow.
Theorem C53_only_sites_of_the_plan_carry_flow : forall ps at_ t I red con P v o i s es e,
  well_formed t -> names_ok at_ t -> network ps at_ t = Ok I -> flow_problem red con t I = Ok P -> feasible P v ->
  extract_flow_solution red con t I v = Ok o -> dget (t_sites t) i = Some s -> ~ in_network (s_status s) ->
  into at_ t i es \/ out_of at_ t i es -> In e es -> carried o e == 0.
Proof. intros. eapply r_site; eauto. Qed.
Print Assumptions C53_only_sites_of_the_plan_carry_flow.
(** the shares of the links of a sector add up to at most 1; a sector that is not PROPOSED, even an EXISTING one, has no airtime at all *)
Theorem C53_sector_time_shares : forall ps at_ t I red con P v k x es,
  well_formed t -> names_ok at_ t -> network ps at_ t = Ok I -> flow_problem red con t I = Ok P -> feasible P v ->
  sector_stored t k x -> lists es (sends t x) \/ lists es (receives t x) ->
  total (share v 0) es <= (if match x_status x with PROPOSED => true | _ => false end then 1 else 0).
Proof. intros. eapply msector; eauto. Qed.
Print Assumptions C53_sector_time_shares.
Theorem C53_sites_pass_on_what_they_receive : forall ps at_ t I red con P v o i ei eo,
  well_formed t -> names_ok at_ t -> network ps at_ t = Ok I -> flow_problem red con t I = Ok P -> feasible P v ->
  extract_flow_solution red con t I v = Ok o -> site_stored t i -> into at_ t i ei -> out_of at_ t i eo ->
  total (carried o) ei == total (carried o) eo.
Proof. intros. eapply r_conserves; eauto. Qed.
Print Assumptions C53_sites_pass_on_what_they_receive.
Theorem C53_connected_consumers_all_receive_the_buffer : forall ps at_ t I red con P v o n ei,
  well_formed t -> names_ok at_ t -> network ps at_ t = Ok I -> flow_problem red con t I = Ok P -> feasible P v ->
  extract_flow_solution red con t I v = Ok o -> consumer at_ t n -> into at_ t n ei -> (In n con -> ei <> []) ->
  total (carried o) ei == if mem n con then fs_buffer o else 0.
Proof. intros. eapply r_receives; eauto. Qed.
Print Assumptions C53_connected_consumers_all_receive_the_buffer.
Theorem C53_supply_is_buffer_times_connected_consumers : forall ps at_ t I red con P v o es cs,
  well_formed t -> names_ok at_ t -> network ps at_ t = Ok I -> flow_problem red con t I = Ok P -> feasible P v ->
  extract_flow_solution red con t I v = Ok o -> out_of at_ t SUPERSOURCE es -> lists cs (consumer at_ t) ->
  (forall n ei, In n con -> into at_ t n ei -> ei <> []) ->
  total (carried o) es == inject_Z (Z.of_nat (List.length (filter (fun n => mem n con) cs))) * fs_buffer o.
Proof. intros. eapply r_supply; eauto. Qed.
Print Assumptions C53_supply_is_buffer_times_connected_consumers.
Theorem C53_pop_load_within_capacity : forall ps at_ t I red con P v o i eo,
  well_formed t -> names_ok at_ t -> network ps at_ t = Ok I -> flow_problem red con t I = Ok P -> feasible P v ->
  extract_flow_solution red con t I v = Ok o -> 0 <= p_pop_capacity ps -> is_pop t i -> out_of at_ t i eo ->
  total (carried o) eo <= p_pop_capacity ps.
Proof. intros. eapply r_pop; eauto. Qed.
Print Assumptions C53_pop_load_within_capacity.
Theorem C53_reported_flow_is_acyclic : forall ps at_ t I red con P v o,
  well_formed t -> names_ok at_ t -> network ps at_ t = Ok I -> flow_problem red con t I = Ok P -> feasible P v ->
  extract_flow_solution red con t I v = Ok o -> acyclic_above (fs_flow o) epsilon.
Proof. intros. eapply r_acyclic; eauto. Qed.
Print Assumptions C53_reported_flow_is_acyclic.

Example C53_hypotheses_met : well_formed fx_topo /\ names_ok ex_attrs fx_topo /\ network ex_params ex_attrs fx_topo = Ok fx_inst /\
  flow_problem fx_red ["y"; "z"]%string fx_topo fx_inst = Ok fx_problem /\ feasible fx_problem fx_v /\
  extract_flow_solution fx_red ["y"; "z"]%string fx_topo fx_inst fx_v = Ok fx_flow /\
  carried fx_flow ("p", "d")%string == 1 /\ carried fx_flow ("d", "p")%string == 0 /\ fs_buffer fx_flow == 1 # 2.
Proof.
  split; [exact fx_wf|]. split; [exact fx_names|]. split; [exact fx_network|]. split; [exact fx_problem_ok|]. split; [exact fx_feasible|]. split; [exact fx_extract|].
  split; [vm_compute; reflexivity|]. split; vm_compute; reflexivity.
Qed.
