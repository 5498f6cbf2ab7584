(** C81 and C82: airtime on one channel, and answers that can be read. *)
From Coq Require Import QArith.
From Verif Require Import Base Dict TopologyModel TopologySpec GraphSpec SetupModel IlpModel IlpSpec DeploySpec ChanModel ChanSpec SinrModel SinrSpec SinrExamples
  TuneModel TuneSpec TuneExamples OneProofs OneExamples.
Local Open Scope Q_scope.

(** A link has airtime on one channel only, with or without traffic. *)
Theorem C81_one_channel R ps at_ t I0 dn_limit total_limit bad PC w k l c c' : well_formed t -> names_ok at_ t -> sectors_stored t ->
  (1 <= p_channels ps)%nat -> network ps at_ t = Ok I0 -> full_problem R dn_limit total_limit bad I0 = Ok PC -> answers PC w ->
  link_stored t k l -> eligible at_ l -> (c < p_channels ps)%nat -> (c' < p_channels ps)%nat ->
  0 < share (w_net w) c (l_tx l, l_rx l) -> 0 < share (w_net w) c' (l_tx l, l_rx l) -> c = c'.
Proof. intros. eapply sinr_one; eauto. Qed.
Print Assumptions C81_one_channel.

(** Every answer can be read if all wireless links have sectors and capacity, and none joins two clients.
    Missing: links without sectors or capacity (see C82_readable_refuted), and the minimum bandwidth, whose
    value in an answer without traffic is not modelled. *)
Theorem C82_readable_partial R ps at_ t I0 dn_limit total_limit bad PC w : well_formed t -> names_ok at_ t -> sectors_stored t -> sector_kinds t ->
  (1 <= p_channels ps)%nat -> network ps at_ t = Ok I0 -> full_problem R dn_limit total_limit bad I0 = Ok PC -> answers PC w ->
  (forall k l, link_stored t k l -> l_wireless l = true -> eligible at_ l) ->
  (forall k l, link_stored t k l -> type_is t (l_tx l) CN -> ~ type_is t (l_rx l) CN) -> exists o, deployment None bad I0 (w_net w) = Ok o.
Proof. intros. eapply sinr_readable; eauto. Qed.
Print Assumptions C82_readable_partial.

(** two channels *)
Example C82_readable_met : well_formed sx_topo /\ names_ok IlpExamples.ex_attrs sx_topo /\ sectors_stored sx_topo /\ sector_kinds sx_topo /\ (2 = p_channels fx_params)%nat /\
  network fx_params IlpExamples.ex_attrs sx_topo = Ok gx_inst /\ full_problem sx_radio 2 15 [] gx_inst = Ok gx_full /\ answers gx_full fx_w /\
  (forall k l, link_stored sx_topo k l -> l_wireless l = true -> eligible IlpExamples.ex_attrs l) /\
  (forall k l, link_stored sx_topo k l -> type_is sx_topo (l_tx l) CN -> ~ type_is sx_topo (l_rx l) CN) /\
  link_stored sx_topo "p-d" sx_link /\ 0 < share (w_net fx_w) 0 ("p", "d")%string.
Proof.
  split; [exact sx_wf|]. split; [exact sx_names|]. split; [exact sx_stored|]. split; [exact sx_kinds|]. split; [reflexivity|]. split; [exact gx_network|].
  split; [exact gx_posed|]. split; [exact gx_answers|]. split; [exact gx_eligible|]. split; [exact gx_clients|]. split; [vm_compute; reflexivity|reflexivity].
Qed.
