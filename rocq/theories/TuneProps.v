(** C82: the plan read from an answer of the deployment step. *)
From Coq Require Import QArith.
From Verif Require Import Base Dict TopologyModel TopologySpec GraphSpec SetupModel IlpModel IlpSpec DeploySpec ExtractSpec ChanModel ChanSpec ChanExamples SinrModel SinrSpec
  TuneModel TuneSpec TuneProofs TuneExamples PruneModel.
Local Open Scope Q_scope.

Section C82.
Variables (ps : params) (at_ : attrs) (t : topo) (I0 : inst) (dn_limit total_limit : nat) (bad : list (string * string * string)) (P : problem) (v : var -> Q).
Variables (common : option Q) (sol : plan).
Hypothesis Hw : well_formed t.
Hypothesis Hn : names_ok at_ t.
Hypothesis Hss : sectors_stored t.
Hypothesis Hk : sector_kinds t.
Hypothesis Hch : (1 <= p_channels ps)%nat.
Hypothesis HI : network ps at_ t = Ok I0.
Hypothesis HP : deploy_problem dn_limit total_limit bad I0 = Ok P.
Hypothesis Hv : feasible P v.
Hypothesis HE : deployment common bad I0 v = Ok (Some sol).

(** the links of the plan are those in use, and the cables between sites of the network *)
Theorem C82_links k l : link_stored t k l -> eligible at_ l ->
  (used v (l_tx l, l_rx l) -> yes (pl_link sol) (l_tx l, l_rx l)) /\ (~ used v (l_tx l, l_rx l) -> no (pl_link sol) (l_tx l, l_rx l)).
Proof. eapply tune_link; eauto. Qed.
Theorem C82_cables k l : link_stored t k l -> l_wireless l = false -> deployed t (l_tx l) -> deployed t (l_rx l) -> yes (pl_link sol) (l_tx l, l_rx l).
Proof. eapply tune_cable; eauto. Qed.
(** the plan has the sites at both ends of a link in use *)
Theorem C82_ends k l : link_stored t k l -> eligible at_ l -> used v (l_tx l, l_rx l) -> yes (pl_site sol) (l_tx l) /\ yes (pl_site sol) (l_rx l).
Proof. eapply tune_ends; eauto. Qed.
(** and the sectors, on the channel the answer has for the sender; clients too *)
Theorem C82_channels k l a b : link_stored t k l -> eligible at_ l -> l_sectors l = Some (a, b) -> used v (l_tx l, l_rx l) -> ~ type_is t (l_tx l) CN ->
  exists c, (c < p_channels ps)%nat /\ tuned v (l_tx l) (key_id a) c /\
    yes (pl_sector sol) (l_tx l, key_id a) /\ yes (pl_sector sol) (l_rx l, key_id b) /\
    dget (pl_channel sol) (l_tx l, key_id a) = Some (Z.of_nat c) /\ dget (pl_channel sol) (l_rx l, key_id b) = Some (Z.of_nat c).
Proof. eapply tune_sectors; eauto. Qed.
(** a sector of the plan is on in the answer, at a site of the plan that has a link of the plan *)
Theorem C82_sector_on k x : sector_stored t k x -> yes (pl_sector sol) (x_site x, k) ->
  yes (pl_site sol) (x_site x) /\ (exists c, ((c = 0 \/ k_cn (x_key x) = false) /\ c < p_channels ps)%nat /\ tuned v (x_site x) k c) /\
  exists e, yes (pl_link sol) e /\ (fst e = x_site x \/ snd e = x_site x).
Proof. eapply tune_sector_on; eauto. Qed.
(** a site of the plan is in the network, and has a link of the plan or serves demand *)
Theorem C82_site_on i s : dget (t_sites t) i = Some s -> yes (pl_site sol) i ->
  deployed t i /\ ((exists e, yes (pl_link sol) e /\ (fst e = i \/ snd e = i)) \/ serves t i).
Proof. eapply tune_site; eauto. Qed.
(** the plan gives the ends of a backhaul link in use opposite polarities, one each *)
Theorem C82_polarity k l : p_ignore_polarities ps = false -> link_stored t k l -> eligible at_ l -> backhaul_site t (l_tx l) -> backhaul_site t (l_rx l) -> used v (l_tx l, l_rx l) ->
  (yes (pl_odd sol) (l_tx l) /\ no (pl_even sol) (l_tx l) /\ no (pl_odd sol) (l_rx l) /\ yes (pl_even sol) (l_rx l)) \/
  (no (pl_odd sol) (l_tx l) /\ yes (pl_even sol) (l_tx l) /\ yes (pl_odd sol) (l_rx l) /\ no (pl_even sol) (l_rx l)).
Proof. eapply tune_polarity; eauto. Qed.
(** the airtime of a link is what it has over all channels *)
Theorem C82_airtime k l : link_stored t k l -> l_wireless l = true ->
  exists q, dget (pl_tdm sol) (l_tx l, l_rx l) = Some q /\ q == total (fun c => share v c (l_tx l, l_rx l)) (seq 0 (p_channels ps)).
Proof. eapply tune_airtime; eauto. Qed.
(** any other link of the plan is a cable between sites of the network, or carries traffic *)
Theorem C82_other_links k l : link_stored t k l -> ~ eligible at_ l -> yes (pl_link sol) (l_tx l, l_rx l) ->
  (l_wireless l = false /\ deployed t (l_tx l) /\ deployed t (l_rx l)) \/
  exists q, dget (pl_flow sol) (l_tx l, l_rx l) = Some q /\ ~ (- epsilon <= q <= epsilon).
Proof. eapply tune_other; eauto. Qed.
(** sites of the network with a link of the plan, or that serve demand, stay in the plan *)
Theorem C82_site_kept i : deployed t i ->
  (exists k l, link_stored t k l /\ yes (pl_link sol) (l_tx l, l_rx l) /\ (l_tx l = i \/ l_rx l = i)) \/
  (exists k d n, dget (t_demands t) k = Some d /\ In i (d_sites d) /\ consumer_of at_ d n) -> yes (pl_site sol) i.
Proof. eapply tune_site_kept; eauto. Qed.
(** every site is either in the plan or out of it *)
Theorem C82_site_off i s : dget (t_sites t) i = Some s -> yes (pl_site sol) i \/ no (pl_site sol) i.
Proof. eapply tune_site_off; eauto. Qed.
(** a sector of the plan that is not a client's is on its channel of the answer; one out of the plan is on none *)
Theorem C82_sector_channel k x : sector_stored t k x -> k_cn (x_key x) = false -> yes (pl_sector sol) (x_site x, k) ->
  exists c, (c < p_channels ps)%nat /\ tuned v (x_site x) k c /\ dget (pl_channel sol) (x_site x, k) = Some (Z.of_nat c).
Proof. eapply tune_sector_channel; eauto. Qed.
Theorem C82_sector_off k x : sector_stored t k x -> no (pl_sector sol) (x_site x, k) -> forall c, dget (pl_channel sol) (x_site x, k) = Some c -> c = (-1)%Z.
Proof. eapply tune_sector_off; eauto. Qed.
End C82.
Print Assumptions C82_links.
Print Assumptions C82_cables.
Print Assumptions C82_ends.
Print Assumptions C82_channels.
Print Assumptions C82_sector_on.
Print Assumptions C82_site_on.
Print Assumptions C82_polarity.
Print Assumptions C82_airtime.
Print Assumptions C82_other_links.
Print Assumptions C82_site_kept.
Print Assumptions C82_site_off.
Print Assumptions C82_sector_channel.
Print Assumptions C82_sector_off.

(** The plan can have one sector of a node on and another one off. *)
Theorem C82_same_node_refuted : exists R ps at_ t I0 PC w sol k x k' x', radio_ok R /\ reachable t /\ names_ok at_ t /\ sectors_stored t /\ sector_kinds t /\ network ps at_ t = Ok I0 /\
  full_problem R 2 15 [] I0 = Ok PC /\ answers PC w /\ deployment None [] I0 (w_net w) = Ok (Some sol) /\
  sector_stored t k x /\ sector_stored t k' x' /\ x_site x = x_site x' /\ k_node (x_key x) = k_node (x_key x') /\
  yes (pl_sector sol) (x_site x, k) /\ no (pl_sector sol) (x_site x', k').
Proof. exact sx_node_plan. Qed.
Print Assumptions C82_same_node_refuted.
(** Not every answer can be read: a wireless link without sectors may have airtime on two channels,
    which the reader takes for an error. *)
Theorem C82_readable_refuted : exists R ps at_ t I0 PC w, radio_ok R /\ reachable t /\ names_ok at_ t /\ sectors_stored t /\ sector_kinds t /\ network ps at_ t = Ok I0 /\
  full_problem R 2 15 [] I0 = Ok PC /\ answers PC w /\ deployment None [] I0 (w_net w) = Err OptExn.
Proof. exact fx_fails. Qed.
Print Assumptions C82_readable_refuted.

(** two channels; the client takes channel 1, that of the sector that serves it *)
Example C82_met : well_formed dx_topo /\ names_ok IlpExamples.ex_attrs dx_topo /\ sectors_stored dx_topo /\ sector_kinds dx_topo /\ (1 <= p_channels dx_params)%nat /\
  network dx_params IlpExamples.ex_attrs dx_topo = Ok dx_inst /\ deploy_problem 2 15 dx_bad dx_inst = Ok dx_problem /\ feasible dx_problem dx_v /\
  deployment None dx_bad dx_inst dx_v = Ok (Some dx_plan) /\ used dx_v ("d", "c")%string /\ yes (pl_sector dx_plan) ("c", "c-0-0-CN")%string /\
  dget (pl_channel dx_plan) ("c", "c-0-0-CN")%string = Some 1%Z /\ dget (pl_channel dx_plan) ("d", "d-0-1-DN")%string = Some 1%Z.
Proof.
  split; [exact dx_wf|]. split; [exact dx_names|]. split; [exact dx_stored|]. split; [exact dx_kinds|]. split; [repeat constructor|].
  split; [exact dx_network|]. split; [exact dx_posed|]. split; [exact dx_feasible|]. split; [exact dx_read|]. split; [reflexivity|]. repeat split; vm_compute; reflexivity.
Qed.
