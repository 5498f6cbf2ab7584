(** C81: capacity under interference. *)
From Coq Require Import QArith.
From Verif Require Import Base Dict TopologyModel TopologySpec GraphSpec SetupModel IlpModel IlpSpec DeploySpec ChanSpec SinrModel SinrSpec SinrProofs SinrExamples.
Local Open Scope Q_scope.

(** A link that carries traffic is on one channel, and has a rate, at least that traffic, whose signal to
    noise ratio it reaches there in spite of all that disturbs it. *)
Theorem C81_rate R ps at_ t I0 dn_limit total_limit bad PC w k l : radio_ok R -> well_formed t -> names_ok at_ t -> sectors_stored t ->
  (1 <= p_channels ps)%nat -> network ps at_ t = Ok I0 -> full_problem R dn_limit total_limit bad I0 = Ok PC -> answers PC w ->
  link_stored t k l -> l_wireless l = true -> 0 < r_rsl R (l_tx l, l_rx l) -> 0 < flow (w_net w) (l_tx l, l_rx l) ->
  exists c snr rate, (c < p_channels ps)%nat /\ In (snr, rate) (r_mcs R (l_rx l)) /\ flow (w_net w) (l_tx l, l_rx l) <= rate /\
    (forall c', (c' < p_channels ps)%nat -> c' <> c -> share (w_net w) c' (l_tx l, l_rx l) == 0) /\ received R ps at_ t (w_net w) l c snr.
Proof. intros. eapply sinr_capacity; eauto. Qed.
Print Assumptions C81_rate.

(** The traffic need not fit in the airtime of the link at a rate it can be received at. *)
Theorem C81_airtime_refuted : exists R ps at_ t I0 PC w k l, radio_ok R /\ reachable t /\ names_ok at_ t /\ sectors_stored t /\ sector_kinds t /\ network ps at_ t = Ok I0 /\
  full_problem R 2 15 [] I0 = Ok PC /\ answers PC w /\ link_stored t k l /\ used (w_net w) (l_tx l, l_rx l) /\
  forall c snr rate, (c < p_channels ps)%nat -> In (snr, rate) (r_mcs R (l_rx l)) -> received R ps at_ t (w_net w) l c snr ->
    total (fun c => share (w_net w) c (l_tx l, l_rx l)) (seq 0 (p_channels ps)) * rate < flow (w_net w) (l_tx l, l_rx l).
Proof. exact sx_airtime. Qed.
Print Assumptions C81_airtime_refuted.

(** C80 for the whole problem: the sectors of one node need not be on together. *)
Theorem C80_same_node_full_refuted : exists R ps at_ t I0 PC w k x k' x', radio_ok R /\ reachable t /\ names_ok at_ t /\ sectors_stored t /\ sector_kinds t /\ network ps at_ t = Ok I0 /\
  full_problem R 2 15 [] I0 = Ok PC /\ answers PC w /\ sector_stored t k x /\ sector_stored t k' x' /\ x_site x = x_site x' /\ k_node (x_key x) = k_node (x_key x') /\
  tuned (w_net w) (x_site x) k 0 /\ forall c, ~ tuned (w_net w) (x_site x') k' c.
Proof. exact sx_node. Qed.
Print Assumptions C80_same_node_full_refuted.

(** a link with traffic that is disturbed by another *)
Example C81_met : radio_ok sx_radio /\ well_formed sx_topo /\ names_ok IlpExamples.ex_attrs sx_topo /\ sectors_stored sx_topo /\ (1 <= p_channels sx_params)%nat /\
  network sx_params IlpExamples.ex_attrs sx_topo = Ok sx_inst /\ full_problem sx_radio 2 15 [] sx_inst = Ok sx_full /\ answers sx_full sx_w /\
  link_stored sx_topo "p-d" sx_link /\ 0 < r_rsl sx_radio ("p", "d")%string /\ 0 < flow (w_net sx_w) ("p", "d")%string /\
  lists [("q", "e")%string] (disturbs sx_radio IlpExamples.ex_attrs sx_topo sx_link).
Proof.
  split; [exact sx_radio_ok|]. split; [exact sx_wf|]. split; [exact sx_names|]. split; [exact sx_stored|]. split; [repeat constructor|]. split; [exact sx_network|].
  split; [exact sx_posed|]. split; [exact sx_answers|]. split; [vm_compute; reflexivity|]. split; [reflexivity|]. split; [reflexivity|]. exact sx_disturbs.
Qed.
