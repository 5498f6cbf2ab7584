(** Property theorems C16-C19 for the site selection models; vocabulary in IlpSpec.v. *)
From Coq Require Import QArith.
From Verif Require Import Base Dict TopologyModel TopologySpec GraphSpec SetupModel IlpModel IlpSpec IlpProofs IlpExamples.
Local Open Scope Q_scope.

(** C16 *)
Theorem C16_used_links_join_opposite_polarities : forall ps at_ t I g adv P v k l,
  well_formed t -> names_ok at_ t -> network ps at_ t = Ok I -> site_problem g adv I = Ok P -> feasible P v ->
  p_ignore_polarities ps = false -> link_stored t k l -> l_wireless l = true ->
  backhaul_site t (l_tx l) -> backhaul_site t (l_rx l) ->
  0 < flow v (l_tx l, l_rx l) \/ 0 < share v 0 (l_tx l, l_rx l) \/ l_status l = PROPOSED \/ l_status l = EXISTING ->
  opposite v (l_tx l) (l_rx l).
Proof. intros. eapply opposite_polarity; eauto. Qed.
Print Assumptions C16_used_links_join_opposite_polarities.

(** C17 *)
Theorem C17_sector_time_shares : forall ps at_ t I g adv P v k x es,
  well_formed t -> names_ok at_ t -> network ps at_ t = Ok I -> site_problem g adv I = Ok P -> feasible P v ->
  sector_stored t k x -> lists es (sends t x) \/ lists es (receives t x) ->
  total (share v 0) es <= v (VSite (x_site x)) /\ (v (VSite (x_site x)) == 0 \/ v (VSite (x_site x)) == 1).
Proof. intros. eapply sector_share; eauto. Qed.
Print Assumptions C17_sector_time_shares.
Theorem C17_flow_within_capacity_times_share : forall ps at_ t I g adv P v k l,
  well_formed t -> names_ok at_ t -> network ps at_ t = Ok I -> site_problem g adv I = Ok P -> feasible P v ->
  link_stored t k l -> l_wireless l = true ->
  0 <= flow v (l_tx l, l_rx l) <= a_cap at_ (l_tx l, l_rx l) * share v 0 (l_tx l, l_rx l) /\ 0 <= share v 0 (l_tx l, l_rx l) <= 1.
Proof. intros. split; [eapply link_flow; eauto|eapply decls_all; eauto]. Qed.
Print Assumptions C17_flow_within_capacity_times_share.
Theorem C17_sector_throughput : forall ps at_ t I g adv P v k x es best,
  well_formed t -> names_ok at_ t -> network ps at_ t = Ok I -> site_problem g adv I = Ok P -> feasible P v ->
  sector_stored t k x -> lists es (sends t x) \/ lists es (receives t x) -> 0 <= best -> (forall e, In e es -> a_cap at_ e <= best) ->
  total (flow v) es <= best * v (VSite (x_site x)).
Proof. intros. eapply sector_throughput; eauto. Qed.
Print Assumptions C17_sector_throughput.

(** C18 *)
Theorem C18_supply_equals_served_demand : forall ps at_ t I g adv P v es cs dem,
  well_formed t -> names_ok at_ t -> network ps at_ t = Ok I -> site_problem g adv I = Ok P -> feasible P v ->
  out_of at_ t SUPERSOURCE es -> lists cs (consumer at_ t) -> (forall n, consumer at_ t n -> wants ps at_ t n (dem n)) ->
  total (flow v) es == total dem cs - total (fun n => v (VShort n)) cs /\
  (forall n, In n cs -> 0 <= v (VShort n) <= dem n).
Proof.
  intros. split.
  - rewrite <- MonadLib.total_sub. eapply super_outflow; eauto.
  - intros n Hn. assert (Hc : consumer at_ t n) by (now apply H5). eapply decls_all; eauto.
Qed.
Print Assumptions C18_supply_equals_served_demand.
Theorem C18_sites_pass_on_what_they_receive : forall ps at_ t I g adv P v i ei eo,
  well_formed t -> names_ok at_ t -> network ps at_ t = Ok I -> site_problem g adv I = Ok P -> feasible P v ->
  site_stored t i -> into at_ t i ei -> out_of at_ t i eo -> total (flow v) ei == total (flow v) eo.
Proof. intros. eapply site_conserves; eauto. Qed.
Print Assumptions C18_sites_pass_on_what_they_receive.
Theorem C18_consumers_receive_demand_minus_shortage : forall ps at_ t I g adv P v n ei dem,
  well_formed t -> names_ok at_ t -> network ps at_ t = Ok I -> site_problem g adv I = Ok P -> feasible P v ->
  (forall n, consumer at_ t n -> wants ps at_ t n (dem n)) -> consumer at_ t n -> into at_ t n ei ->
  total (flow v) ei == dem n - v (VShort n).
Proof. intros. eapply consumer_receives; eauto. Qed.
Print Assumptions C18_consumers_receive_demand_minus_shortage.
Theorem C18_pop_load_within_capacity : forall ps at_ t I g adv P v i eo,
  well_formed t -> names_ok at_ t -> network ps at_ t = Ok I -> site_problem g adv I = Ok P -> feasible P v ->
  0 <= p_pop_capacity ps -> is_pop t i -> out_of at_ t i eo -> total (flow v) eo <= p_pop_capacity ps.
Proof. intros. eapply pop_load; eauto. Qed.
Print Assumptions C18_pop_load_within_capacity.

(** C19 *)
Theorem C19_colocated_sites_exclude_each_other : forall ps at_ t I g adv P v i j si sj,
  well_formed t -> names_ok at_ t -> network ps at_ t = Ok I -> site_problem g adv I = Ok P -> feasible P v ->
  dget (t_sites t) i = Some si -> dget (t_sites t) j = Some sj -> i <> j -> s_loc si = s_loc sj ->
  ~ (selected v i /\ selected v j).
Proof. intros. eapply colocated_exclusive; eauto. Qed.
Print Assumptions C19_colocated_sites_exclude_each_other.
Theorem C19_location_in_use_is_kept : forall ps at_ t I g adv P v i s,
  well_formed t -> names_ok at_ t -> network ps at_ t = Ok I -> site_problem g adv I = Ok P -> feasible P v ->
  dget (t_sites t) i = Some s -> in_use ps t i s ->
  (exists j sj, dget (t_sites t) j = Some sj /\ s_loc sj = s_loc s /\ i <> j) ->
  exists j sj, dget (t_sites t) j = Some sj /\ s_loc sj = s_loc s /\ selected v j /\
    (rank (s_type s) <= rank (s_type sj))%nat /\ (s_type sj = s_type s -> in_use ps t j sj) /\ (s_type s <> CN -> in_use ps t j sj).
Proof. intros. eapply colocated_kept; eauto. Qed.
Print Assumptions C19_location_in_use_is_kept.
Theorem C19_lone_site_in_use_is_kept : forall ps at_ t I g adv P v i s,
  well_formed t -> names_ok at_ t -> network ps at_ t = Ok I -> site_problem g adv I = Ok P -> feasible P v ->
  dget (t_sites t) i = Some s -> (forall j sj, dget (t_sites t) j = Some sj -> s_loc sj = s_loc s -> j = i) ->
  s_status s = PROPOSED \/ s_status s = EXISTING \/
    (p_always_active_pops ps = true /\ s_type s = POP /\ s_status s <> UNAVAILABLE /\ s_status s <> UNREACHABLE) ->
  selected v i.
Proof. intros. eapply lone_decided; eauto. Qed.
Print Assumptions C19_lone_site_in_use_is_kept.
(** unavailable and unreachable sites are never selected, POPs apart when POPs are always active *)
Theorem C19_ruled_out_sites_are_not_selected : forall ps at_ t I g adv P v i s,
  well_formed t -> names_ok at_ t -> network ps at_ t = Ok I -> site_problem g adv I = Ok P -> feasible P v ->
  dget (t_sites t) i = Some s -> s_status s = UNAVAILABLE \/ s_status s = UNREACHABLE ->
  (p_always_active_pops ps = true -> s_type s <> POP) -> ~ selected v i.
Proof. intros. eapply ruled_out; eauto. Qed.
Print Assumptions C19_ruled_out_sites_are_not_selected.

(** A network meeting the hypotheses: a proposed CN is replaced by the DN at the same place, which
    serves the demand through a chain of two wireless links. *)
Example C16_C19_hypotheses_met : forall g, In g ex_goals -> well_formed ex_topo /\ names_ok ex_attrs ex_topo /\
  network ex_params ex_attrs ex_topo = Ok ex_inst /\ site_problem g [] ex_inst = Ok (ex_problem g) /\ feasible (ex_problem g) ex_v /\
  p_ignore_polarities ex_params = false /\
  flow ex_v ("d", "e")%string == 1 /\ opposite ex_v "d" "e" /\ selected ex_v "e" /\ ~ selected ex_v "c".
Proof.
  intros g Hg. split; [exact ex_wf|]. split; [exact ex_names|]. split; [exact ex_network|]. split; [now apply ex_site_problem|]. split; [now apply ex_feasible|].
  split; [reflexivity|]. split; [vm_compute; reflexivity|]. split; [left; vm_compute; auto|]. split; [vm_compute; reflexivity|]. intros E. vm_compute in E. discriminate.
Qed.
