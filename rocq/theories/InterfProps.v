(** C38: interference is counted exactly between links that can hear each other. *)
From Coq Require Import QArith ZArith.
From Verif Require Import Base Dict TopologyModel TopologySpec DeploySpec InterfModel InterfSpec InterfProofs InterfMainProofs InterfFinalProofs InterfExamples.
Local Open Scope list_scope.

Theorem C38_cn_polarities : forall t, reachable t -> exists d, cn_polarities t = Ok d /\
  forall i p, dget d i = Some p <-> (exists s, dget (t_sites t) i = Some s /\ s_type s = CN) /\ cn_polarity t i p.
Proof. exact cn_polarities_exact. Qed.
Print Assumptions C38_cn_polarities.

Theorem C38_polarity_filter : forall t, reachable t -> exists cnp, cn_polarities t = Ok cnp /\ forall k l, link_stored t k l ->
  (compatible_polarity t cnp l = Ok true <-> polarity_ok t l)
  /\ (forall e, compatible_polarity t cnp l = Err e <->
        e = PyKeyError /\ exists tx rx, dget (t_sites t) (l_tx l) = Some tx /\ dget (t_sites t) (l_rx l) = Some rx /\ is_active (s_status tx) /\ is_active (s_status rx)
          /\ s_type rx = CN /\ forall p, ~ served_as t (l_rx l) p).
Proof. exact polarity_filter. Qed.
Print Assumptions C38_polarity_filter.

Theorem C38_polarity_symmetric : forall t cnp l l' tx rx, l_tx l' = l_rx l -> l_rx l' = l_tx l ->
  dget (t_sites t) (l_tx l) = Some tx -> dget (t_sites t) (l_rx l) = Some rx -> s_type tx <> CN -> s_type rx <> CN ->
  compatible_polarity t cnp l' = compatible_polarity t cnp l.
Proof. exact polarity_symmetric. Qed.
Print Assumptions C38_polarity_symmetric.

Theorem C38_channel_filter : forall channel t k l, reachable t -> sectors_stored t -> link_stored t k l ->
  exists b, compatible_channel channel t l = Ok b /\ (b = true <-> channel_ok t channel l).
Proof. exact (fun c t k l Hr Hs => compatible_channel_spec c t Hr Hs k l). Qed.
Print Assumptions C38_channel_filter.

Theorem C38_channel_symmetric : forall channel t l l' a b x y, l_sectors l = Some (a, b) -> l_sectors l' = Some (b, a) ->
  sector_stored t (key_id a) x -> sector_stored t (key_id b) y -> compatible_channel channel t l' = compatible_channel channel t l.
Proof. exact channel_symmetric. Qed.
Print Assumptions C38_channel_symmetric.

Theorem C38_interferers_exact : forall channel redundant gain t m, reachable t -> sectors_stored t -> net_gain_map channel redundant gain t = Ok m ->
  forall p v i g, (exists r r', dget m p = Some r /\ dget r v = Some r' /\ dget r' i = Some g) <-> interferes t channel redundant p v i /\ g = gain p v i.
Proof. exact gains_exact. Qed.
Print Assumptions C38_interferers_exact.

Theorem C38_sinr_exact : forall channel redundant gain power rsl noise lg t R, reachable t -> sectors_stored t ->
  analyze_interference channel redundant gain t power rsl noise lg = Ok R ->
  (forall k, (exists x, In (k, x) R) <-> exists l, link_stored t k l /\ on_air l) /\ NoDup (map fst R) /\
  forall k x L, In (k, x) R -> lists_interferers t channel redundant k L ->
    match rsl k with
    | None => x = None
    | Some r => exists v, (v == disturbance t gain power k L)%Q /\ x = Some (r - lg (v + noise k))%Q
    end.
Proof. intros. eapply sinr_exact; eauto. Qed.
Print Assumptions C38_sinr_exact.

Theorem C38_sinr_at_most_snr : forall channel redundant gain power rsl noise lg t R, reachable t -> sectors_stored t ->
  analyze_interference channel redundant gain t power rsl noise lg = Ok R ->
  (forall i g, (0 <= power i g)%Q) -> (forall x y, (x <= y)%Q -> (lg x <= lg y)%Q) ->
  forall k s r L, In (k, Some s) R -> rsl k = Some r -> lists_interferers t channel redundant k L ->
    (s <= r - lg (noise k))%Q /\ ((forall p i, ~ interferes t channel redundant p k i) -> (s == r - lg (noise k))%Q).
Proof. intros. eapply sinr_bounds; eauto. Qed.
Print Assumptions C38_sinr_at_most_snr.

Theorem C38_returns_when_cns_served : forall channel redundant gain power rsl noise lg t, reachable t -> sectors_stored t -> cns_served t ->
  exists R, analyze_interference channel redundant gain t power rsl noise lg = Ok R.
Proof. intros. eapply analyze_total; eauto. Qed.
Print Assumptions C38_returns_when_cns_served.

Theorem C38_never_raises_refuted : exists t channel redundant gain power rsl noise lg, reachable t /\ sectors_stored t /\
  (forall i s, dget (t_sites t) i = Some s -> is_active (s_status s)) /\ (forall k x, dget (t_sectors t) k = Some x -> is_active (x_status x)) /\
  analyze_interference channel redundant gain t power rsl noise lg = Err PyKeyError.
Proof. exact unserved_cn_raises. Qed.
Print Assumptions C38_never_raises_refuted.
