(** C65: adversarial links are links of the plan that some demand depends on and that the candidates can replace. *)
From Coq Require Import ZArith QArith.
From Verif Require Import Base Dict TopologyModel TopologySpec GraphSpec NxModel NxSpec AdvModel AdvSpec AdvProofs AdvExamples.
Local Open Scope list_scope.

Theorem C65_adversarial_links : forall mcs cap ratio t, reachable t -> ids_apart t -> (forall k l, link_stored t k l -> l_tx l <> l_rx l) ->
  forall n L, backhaul_count t n -> get_adversarial_links mcs cap ratio t = Ok L ->
  NoDup L /\ ((ratio <= 0)%Q -> L = []) /\ (L <> [] -> (inject_Z (Z.of_nat (List.length L)) < inject_Z (Z.of_nat n) * ratio + (2#1))%Q)
  /\ (forall u v, In (u, v) L -> usable_arc t cap u v /\ (carries t in_plan u v \/ carries t in_plan v u) /\ (exists d, off_link t in_plan u v d) /\ (usable_arc t cap v u -> In (v, u) L))
  /\ (forall d, is_demand_site t d -> linked (usable_arc t cap) d -> linked (minus (usable_arc t cap) L) d)
  /\ ((0 < ratio)%Q -> forall u v k, carries t in_plan u v -> sorted_pair k u v -> (exists d, off_link t in_plan u v d) ->
      (forall i l, link_stored t i l -> l_tx l = fst k -> l_rx l = snd k -> l_type l <> WIRELESS_ACCESS) ->
      In k L \/ (exists d, is_demand_site t d /\ linked (usable_arc t cap) d /\ ~ linked (minus_pair (minus (usable_arc t cap) L) u v) d)
      \/ ((inject_Z (Z.of_nat n) * ratio <= inject_Z (Z.of_nat (List.length L)))%Q /\ forall x y, In (x, y) L -> no_more (off_link t in_plan u v) (off_link t in_plan x y))).
Proof. exact adversarial_exact. Qed.
Print Assumptions C65_adversarial_links.

Theorem C65_returns : forall mcs cap ratio t, reachable t -> ids_apart t -> (forall k l, link_stored t k l -> l_tx l <> l_rx l) ->
  (exists i, site_with t in_plan (fun s => s_type s = POP) i) ->
  (forall u v, carries t in_plan u v -> carries t in_plan v u /\ usable_arc t cap u v /\ usable_arc t cap v u) ->
  exists L, get_adversarial_links mcs cap ratio t = Ok L.
Proof. exact adversarial_returns. Qed.
Print Assumptions C65_returns.

(** without the requirement that the links of the plan have capacity *)
Theorem C65_always_returns_refuted : exists mcs cap ratio t, reachable t /\ ids_apart t /\ (forall k l, link_stored t k l -> l_tx l <> l_rx l) /\ (exists i, site_with t in_plan (fun s => s_type s = POP) i) /\
  (forall u v, carries t in_plan u v -> carries t in_plan v u) /\ (forall k, 0 <= cap k)%Q /\ (0 < ratio <= 1)%Q /\ get_adversarial_links mcs cap ratio t = Err NetworkXExn.
Proof. exact dead_link_raises. Qed.
Print Assumptions C65_always_returns_refuted.
