(** C71: transmit power control. *)
From Coq Require Import QArith.
From Verif Require Import Base Dict QLib SetupModel LosRangeModel TopologyModel RfModel RfSpec TpcModel TpcSpec TpcProofs TpcFinalProofs TpcExamples.
Local Open Scope Q_scope.

(** It ends, and fails only for a number of iterations below one *)
Theorem C71_outcome : forall table minimum max_power noise gain pop received links n s, (forall l, In l links -> table l <> []) ->
  (forall q, power_control table minimum max_power noise gain pop received links n s = Ok q -> (1 <= n)%Z)
  /\ ((n < 1)%Z -> power_control table minimum max_power noise gain pop received links n s = Err OptExn)
  /\ ((1 <= n)%Z -> exists q, power_control table minimum max_power noise gain pop received links n s = Ok q).
Proof. exact control_outcome. Qed.
Print Assumptions C71_outcome.

(** The class and capacity of every wireless link are those of its final ratio of signal to interference and noise *)
Theorem C71_class_of_sinr : forall table minimum max_power noise gain pop received links, NoDup (map l_id links) -> tables_ok table links ->
  forall n s s' b l, power_control table minimum max_power noise gain pop received links n s = Ok (s', b) ->
  In l links -> l_type l <> ETHERNET ->
  class_for (table l) (x_sinr (s' (l_id l))) (x_mcs (s' (l_id l))) /\ throughput (table l) (x_mcs (s' (l_id l))) (x_cap (s' (l_id l))).
Proof. exact control_class. Qed.
Print Assumptions C71_class_of_sinr.

(** A link on air is silent or transmits within the limits of its device; its levels follow from its power, the gain of its path and
    the interference of all final powers *)
Theorem C71_power_within_limits : forall table minimum max_power noise gain pop received links, NoDup (map l_id links) -> tables_ok table links ->
  forall n s s' b l, depends_on_powers received ->
  power_control table minimum max_power noise gain pop received links n s = Ok (s', b) -> In l links -> on_air l ->
  (has_sectors l -> silent (s' (l_id l)) \/ exists p, transmitting minimum max_power noise gain received s' l p)
  /\ (~ has_sectors l -> x_tx (s' (l_id l)) = NInf /\ x_mcs (s' (l_id l)) = 0%nat).
Proof. exact control_limits. Qed.
Print Assumptions C71_power_within_limits.

(** Wired links keep the capacity of the POP *)
Theorem C71_wired : forall table minimum max_power noise gain pop received links, NoDup (map l_id links) -> tables_ok table links ->
  forall n s s' b l, power_control table minimum max_power noise gain pop received links n s = Ok (s', b) ->
  In l links -> l_type l = ETHERNET -> x_cap (s' (l_id l)) = pop /\ x_mcs (s' (l_id l)) = 0%nat /\ x_tx (s' (l_id l)) = NInf.
Proof. exact control_wired. Qed.
Print Assumptions C71_wired.

(** Where a further round would change nothing, every power is the least with which a class is reached, within the backoff of that
    class; without a smallest power this is the class of the link *)
Theorem C71_settled_power_is_least : forall table minimum max_power noise gain pop received links n s s' b l p,
  NoDup (map l_id links) -> good_tables table links -> depends_on_powers received ->
  power_control table minimum max_power noise gain pop received links n s = Ok (s', b) ->
  settled table minimum max_power noise gain received links s' ->
  In l links -> on_air l -> has_sectors l -> positive_thresholds (table l) -> lowest_usable (table l) (minimum l) (max_power l) ->
  x_tx (s' (l_id l)) = Fin p ->
  exists r, In r (table l) /\ least_power minimum gain received s' l r p /\ p <= max_power l - m_backoff r
    /\ (m_mcs r <= x_mcs (s' (l_id l)))%nat /\ (minimum l = None -> m_mcs r = x_mcs (s' (l_id l))).
Proof. exact settled_power. Qed.
Print Assumptions C71_settled_power_is_least.

(** With a smallest power the class of the link may need a backoff that its power exceeds *)
Theorem C71_backoff_respected_refuted : exists rows t gain s s' r p,
  check_table 16 (Some 10) None rows = Ok t /\ good_table t /\ (m_mcs r = x_mcs (s' (l_id la)) /\ In r t)
  /\ power_control (fun _ => t) (const (Some 10)) (const (get_max_tx_power 16 (Some 10) 30 0 (Some 44))) (const (-(74))) (const gain) 5 quiet_air [la] 10 s = Ok (s', true)
  /\ x_tx (s' (l_id la)) = Fin p /\ get_max_tx_power 16 (Some 10) 30 0 (Some 44) - m_backoff r < p.
Proof. exact backoff_exceeded. Qed.
Print Assumptions C71_backoff_respected_refuted.

(** A link that falls silent stays so however many iterations are allowed; and more iterations than needed change nothing *)
Theorem C71_silent_for_good : forall table minimum max_power noise gain pop received links n n' s s' b s'' b'' l,
  NoDup (map l_id links) -> tables_ok table links -> (n <= n')%Z ->
  power_control table minimum max_power noise gain pop received links n s = Ok (s', b) ->
  power_control table minimum max_power noise gain pop received links n' s = Ok (s'', b'') ->
  In l links -> on_air l -> x_tx (s' (l_id l)) = NInf -> x_tx (s'' (l_id l)) = NInf.
Proof. exact silent_for_good. Qed.
Print Assumptions C71_silent_for_good.
Theorem C71_stable_for_good : forall table minimum max_power noise gain pop received links n n' s s',
  NoDup (map l_id links) -> tables_ok table links -> (n <= n')%Z ->
  power_control table minimum max_power noise gain pop received links n s = Ok (s', true) ->
  power_control table minimum max_power noise gain pop received links n' s = Ok (s', true).
Proof. exact stable_for_good. Qed.
Print Assumptions C71_stable_for_good.

(** The rounds end exactly when no power has changed: compared with one round fewer, and in the first round with the link budget *)
Theorem C71_stops_when_stable : forall table minimum max_power noise gain pop received links n s s1 s2 b,
  NoDup (map l_id links) -> (exists l, In l links /\ on_air l) ->
  power_control table minimum max_power noise gain pop received links n s = Ok (s1, false) ->
  power_control table minimum max_power noise gain pop received links (n + 1) s = Ok (s2, b) ->
  b = true <-> forall l, In l links -> on_air l -> nearly (x_tx (s2 (l_id l))) (x_tx (s1 (l_id l))).
Proof. exact stops_when_stable. Qed.
Print Assumptions C71_stops_when_stable.
Theorem C71_first_round_stable : forall table minimum max_power noise gain pop received links s s1 b,
  NoDup (map l_id links) -> (exists l, In l links /\ on_air l) ->
  power_control table minimum max_power noise gain pop received links 1 s = Ok (s1, b) ->
  b = true <-> forall l, In l links -> on_air l -> has_sectors l ->
    exists bu, link_budget (max_power l) (minimum l) (gain l) (noise l) (table l) = Ok bu /\ nearly (x_tx (s1 (l_id l))) (Fin (b_tx bu)).
Proof. exact first_round_stable. Qed.
Print Assumptions C71_first_round_stable.

(** A silent link may be one that would work: here all links are silent and each of them would reach a class *)
Theorem C71_silent_links_unusable_refuted : exists table minimum max_power noise gain pop received links n s s',
  NoDup (map l_id links) /\ good_tables table links /\ depends_on_powers received /\ links <> []
  /\ power_control table minimum max_power noise gain pop received links n s = Ok (s', true)
  /\ forall l, In l links -> on_air l /\ has_sectors l /\ x_cap (s' (l_id l)) == 0 /\ x_tx (s' (l_id l)) = NInf
       /\ exists r, In r (table l) /\ 0 < m_mbps r /\ closes (max_power l) (minimum l) (gain l) (received (powers s') (l_id l)) r.
Proof. exact all_silent. Qed.
Print Assumptions C71_silent_links_unusable_refuted.

(** Links that are not built: their ratio is that of the link budget, but the capacity may be more than any permitted power gives *)
Theorem C71_unbuilt_links : forall table minimum max_power noise gain pop received links, NoDup (map l_id links) -> tables_ok table links ->
  forall n s s' b l, power_control table minimum max_power noise gain pop received links n s = Ok (s', b) ->
  In l links -> ~ on_air l -> l_type l <> ETHERNET -> has_sectors l ->
  exists bu, link_budget (max_power l) (minimum l) (gain l) (noise l) (table l) = Ok bu
    /\ x_tx (s' (l_id l)) = Fin (b_tx bu) /\ x_sinr (s' (l_id l)) = Fin (b_snr bu).
Proof. exact control_unbuilt. Qed.
Print Assumptions C71_unbuilt_links.
Theorem C71_unbuilt_capacity_refuted : exists t l max_power noise gain s s' b bu, good_table t /\ ~ on_air l /\ l_type l <> ETHERNET /\ has_sectors l
  /\ power_control (fun _ => t) (const None) (const max_power) (const noise) (const gain) 5 quiet_air [l] 10 s = Ok (s', b)
  /\ link_budget max_power None gain noise t = Ok bu /\ b_capacity bu < x_cap (s' (l_id l))
  /\ forall r, In r t -> closes max_power None gain noise r -> m_mbps r / 1000 < x_cap (s' (l_id l)).
Proof. exact candidate_capacity. Qed.
Print Assumptions C71_unbuilt_capacity_refuted.
