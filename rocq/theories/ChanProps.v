(** C80: the links, sectors and channels chosen by the deployment step. *)
From Coq Require Import QArith.
From Verif Require Import Base Dict TopologyModel TopologySpec GraphSpec SetupModel IlpModel IlpSpec DeploySpec ChanModel ChanSpec ChanProofs ChanExamples.
Local Open Scope Q_scope.

Section C80.
Variables (ps : params) (at_ : attrs) (t : topo) (I0 : inst) (dn_limit total_limit : nat) (bad : list (string * string * string)) (P : problem) (v : var -> Q).
Hypothesis Hw : well_formed t.
Hypothesis Hn : names_ok at_ t.
Hypothesis Hss : sectors_stored t.
Hypothesis Hk : sector_kinds t.
Hypothesis Hch : (1 <= p_channels ps)%nat.
Hypothesis HI : network ps at_ t = Ok I0.
Hypothesis HP : deploy_problem dn_limit total_limit bad I0 = Ok P.
Hypothesis Hv : feasible P v.

(** a link in use joins two sites of the network and two sectors that are on; between backhaul sites
    they are on the same channel *)
Theorem C80_used_link k l a b : link_stored t k l -> eligible at_ l -> l_sectors l = Some (a, b) -> used v (l_tx l, l_rx l) ->
  deployed t (l_tx l) /\ deployed t (l_rx l) /\
  (exists c, (c < p_channels ps)%nat /\ (k_cn a = true -> c = 0%nat) /\ tuned v (l_tx l) (key_id a) c) /\
  (exists c, (c < p_channels ps)%nat /\ (k_cn b = true -> c = 0%nat) /\ tuned v (l_rx l) (key_id b) c) /\
  (~ type_is t (l_rx l) CN -> forall c, (c < p_channels ps)%nat -> tuned v (l_tx l) (key_id a) c -> tuned v (l_rx l) (key_id b) c).
Proof. eapply chan_used_link; eauto. Qed.
(** sectors that are on belong to sites of the network, and no sector is on two channels *)
Theorem C80_sector_site k x c : sector_stored t k x -> (c = 0 \/ k_cn (x_key x) = false)%nat -> (c < p_channels ps)%nat -> tuned v (x_site x) k c -> deployed t (x_site x).
Proof. eapply chan_sector_site; eauto. Qed.
Theorem C80_one_channel k x c c' : sector_stored t k x -> k_cn (x_key x) = false -> (c < p_channels ps)%nat -> (c' < p_channels ps)%nat ->
  tuned v (x_site x) k c -> tuned v (x_site x) k c' -> c = c'.
Proof. eapply chan_one_channel; eauto. Qed.
(** a client is served over one link *)
Theorem C80_one_link_per_client k l k' l' : link_stored t k l -> link_stored t k' l' -> eligible at_ l -> eligible at_ l' -> l_rx l = l_rx l' -> type_is t (l_rx l) CN ->
  used v (l_tx l, l_rx l) -> used v (l_tx l', l_rx l') -> l = l'.
Proof. eapply chan_cn; eauto. Qed.
(** links are used in both directions *)
Theorem C80_both_directions k l k' l' : link_stored t k l -> link_stored t k' l' -> eligible at_ l -> eligible at_ l' -> l_tx l' = l_rx l -> l_rx l' = l_tx l ->
  used v (l_tx l, l_rx l) -> used v (l_rx l, l_tx l).
Proof. eapply chan_symmetric; eauto. Qed.
(** backhaul links in use join opposite polarities *)
Theorem C80_polarity k l : p_ignore_polarities ps = false -> link_stored t k l -> eligible at_ l -> backhaul_site t (l_tx l) -> backhaul_site t (l_rx l) ->
  used v (l_tx l, l_rx l) -> opposite v (l_tx l) (l_rx l).
Proof. eapply chan_polarity; eauto. Qed.
(** a sector has at most the allowed number of backhaul links, and of links *)
Theorem C80_limits k x es : sector_stored t k x -> backhaul_site t (x_site x) -> NoDup es ->
  ((forall e, In e es -> used_from at_ t v x (backhaul_site t) e) -> (List.length es <= dn_limit)%nat) /\
  ((forall e, In e es -> used_from at_ t v x (site_stored t) e) -> (List.length es <= total_limit)%nat).
Proof. eapply chan_multi; eauto. Qed.
(** existing links between sites of the network are used, links ruled out are not *)
Theorem C80_existing_links k l : link_stored t k l -> eligible at_ l -> l_status l = EXISTING -> deployed t (l_tx l) -> deployed t (l_rx l) -> used v (l_tx l, l_rx l).
Proof. eapply chan_kept; eauto. Qed.
Theorem C80_ruled_out_links k l : link_stored t k l -> eligible at_ l -> l_status l = UNAVAILABLE \/ l_status l = UNREACHABLE -> ~ used v (l_tx l, l_rx l).
Proof. eapply chan_not_used; eauto. Qed.
(** two links that break the angle rule are not used on the same channel, unless both exist *)
Theorem C80_angle i j h k1 l1 a1 b1 k2 l2 a2 b2 c : In (i, j, h) bad ->
  link_stored t k1 l1 -> eligible at_ l1 -> l_sectors l1 = Some (a1, b1) -> l_tx l1 = i -> l_rx l1 = j ->
  link_stored t k2 l2 -> eligible at_ l2 -> l_sectors l2 = Some (a2, b2) -> l_tx l2 = i -> l_rx l2 = h ->
  used v (i, j) -> used v (i, h) -> (c < p_channels ps)%nat -> tuned v i (key_id a1) c -> tuned v i (key_id a2) c -> existing_link t (i, j) /\ existing_link t (i, h).
Proof. eapply chan_angle; eauto. Qed.
(** only links in use carry traffic; the airtime of a sector on a channel adds up to at most 1, and to
    0 on the channels it is not on *)
Theorem C80_traffic k l : link_stored t k l -> l_wireless l = true -> 0 < flow v (l_tx l, l_rx l) -> eligible at_ l /\ used v (l_tx l, l_rx l).
Proof. eapply chan_traffic; eauto. Qed.
Theorem C80_airtime k x c es : sector_stored t k x -> (c = 0 \/ k_cn (x_key x) = false)%nat -> (c < p_channels ps)%nat -> lists es (sends t x) \/ lists es (receives t x) ->
  total (share v c) es <= 1 /\ (0 < total (share v c) es -> tuned v (x_site x) k c).
Proof. eapply chan_airtime; eauto. Qed.
(** a link has airtime only if it is in use, and at most all of the time over the channels *)
Theorem C80_idle k l : link_stored t k l -> eligible at_ l ->
  total (fun c => share v c (l_tx l, l_rx l)) (seq 0 (p_channels ps)) <= 1 /\
  forall c, (c < p_channels ps)%nat -> 0 < share v c (l_tx l, l_rx l) -> used v (l_tx l, l_rx l).
Proof. eapply chan_idle; eauto. Qed.
End C80.
Print Assumptions C80_used_link.
Print Assumptions C80_sector_site.
Print Assumptions C80_one_channel.
Print Assumptions C80_one_link_per_client.
Print Assumptions C80_both_directions.
Print Assumptions C80_polarity.
Print Assumptions C80_limits.
Print Assumptions C80_existing_links.
Print Assumptions C80_ruled_out_links.
Print Assumptions C80_angle.
Print Assumptions C80_traffic.
Print Assumptions C80_airtime.
Print Assumptions C80_idle.

(** The sectors of one node are meant to be on together.  The test for that looks up pairs in a
    dictionary of triples, so nothing enforces it. *)
Theorem C80_same_node_refuted : exists ps at_ t I0 P v k x k' x', reachable t /\ names_ok at_ t /\ sectors_stored t /\ sector_kinds t /\ network ps at_ t = Ok I0 /\
  deploy_problem 2 15 [] I0 = Ok P /\ feasible P v /\ sector_stored t k x /\ sector_stored t k' x' /\ x_site x = x_site x' /\ k_node (x_key x) = k_node (x_key x') /\
  tuned v (x_site x) k 0 /\ forall c, ~ tuned v (x_site x') k' c.
Proof. exact dx_node. Qed.
Print Assumptions C80_same_node_refuted.

(** two channels, a POP, two DNs and a client, a pair of links that break the angle rule *)
Example C80_met : well_formed dx_topo /\ names_ok IlpExamples.ex_attrs dx_topo /\ sectors_stored dx_topo /\ sector_kinds dx_topo /\ (1 <= p_channels dx_params)%nat /\
  network dx_params IlpExamples.ex_attrs dx_topo = Ok dx_inst /\ deploy_problem 2 15 [("d", "e", "p")]%string dx_inst = Ok dx_problem /\ feasible dx_problem dx_v /\
  used dx_v ("p", "d")%string /\ used dx_v ("d", "e")%string /\ used dx_v ("d", "c")%string /\ 0 < flow dx_v ("d", "e")%string /\
  tuned dx_v "d" "d-0-0-DN" 0 /\ tuned dx_v "d" "d-0-1-DN" 1.
Proof.
  split; [exact dx_wf|]. split; [exact dx_names|]. split; [exact dx_stored|]. split; [exact dx_kinds|]. split; [repeat constructor|].
  split; [exact dx_network|]. split; [exact dx_posed|]. split; [exact dx_feasible|]. repeat split.
Qed.
