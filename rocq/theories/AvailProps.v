(** C33: simulated availability is the share of the time during which demand is connected, or a link works. *)
From Coq Require Import ZArith QArith.
From Verif Require Import Base Dict TopologyModel TopologySpec GraphSpec NxModel NxSpec AvailModel AvailSpec AvailProofs AvailFinalProofs AvailTopoProofs AvailExamples.
Local Open Scope string_scope.
Local Open Scope list_scope.

(** The simulation ends, for every sequence of drawn numbers that adds up to the simulated time, and wherever the time limit strikes. *)
Theorem C33_availability_is_a_share : forall draw over mcs t f p sim, reachable t -> ids_apart t -> (exists i, site_with t f (fun s => s_type s = POP) i) ->
  (forall k l, link_stored t k l -> l_tx l <> l_rx l) -> (forall u v, carries t f u v -> carries t f v u) ->
  (0 < sim)%Q -> (0 < p)%Q /\ (p <= 100)%Q -> (forall k n, radio_pair t f k -> (0 < fst (draw k n))%Q /\ (0 <= snd (draw k n))%Q) ->
  (forall k, radio_pair t f k -> exists n, (sim <= starts draw (p / 100) (1 - p / 100) k n)%Q) ->
  exists N, forall fuel, (N <= fuel)%nat -> exists A LA T, compute_availability draw over fuel (build_digraph mcs t f) p sim = Ok (A, LA) /\ (0 < T)%Q /\ (T <= sim)%Q /\ ((forall n, over n = false) -> T == sim)%Q
  /\ lists_all (dkeys A) (served t f)
  /\ (forall d v, dget A d = Some v -> (0 <= v)%Q /\ (v <= 1)%Q /\ holds_for (fun s => served_at draw (p / 100) (1 - p / 100) t f s d) 0 T (v * T))
  /\ NoDup (dkeys LA) /\ (forall k, In k (dkeys LA) <-> radio_pair t f k)
  /\ (forall k v, dget LA k = Some v -> (0 <= v)%Q /\ (v <= 1)%Q /\ holds_for (fun s => ~ down draw (p / 100) (1 - p / 100) k s) 0 T (v * sim)).
Proof. exact topo_exact. Qed.
Print Assumptions C33_availability_is_a_share.

(** the same for any graph *)
Theorem C33_any_graph : forall draw over g p sim, graph_ok g -> no_loops g -> source_ok g -> (forall u v, arc_type g u v (Some (ELink WIRELESS_BACKHAUL)) -> arc g v u) ->
  (0 < sim)%Q -> (0 < p)%Q /\ (p <= 100)%Q -> (forall k n, joined g k -> (0 < fst (draw k n))%Q /\ (0 <= snd (draw k n))%Q) ->
  forall fuel, (forall k, joined g k -> (sim <= starts draw (p / 100) (1 - p / 100) k fuel)%Q) ->
  exists A LA T, compute_availability draw over fuel g p sim = Ok (A, LA) /\ (0 < T)%Q /\ (T <= sim)%Q /\ ((forall n, over n = false) -> T == sim)%Q
  /\ lists_all (dkeys A) (connected_demand g (arc g))
  /\ (forall d v, dget A d = Some v -> (0 <= v)%Q /\ (v <= 1)%Q /\ holds_for (fun s => linked (works draw (p / 100) (1 - p / 100) g s) d) 0 T (v * T))
  /\ NoDup (dkeys LA) /\ (forall k, In k (dkeys LA) <-> joined g k)
  /\ (forall k v, dget LA k = Some v -> (0 <= v)%Q /\ (v <= 1)%Q /\ holds_for (fun s => ~ down draw (p / 100) (1 - p / 100) k s) 0 T (v * sim)).
Proof. exact compute_fuel. Qed.
Print Assumptions C33_any_graph.

(** the share of the time is a number, and there is only one *)
Theorem C33_shares_are_unique : forall P a b m m', holds_for P a b m -> holds_for P a b m' -> (m == m' /\ 0 <= m /\ m <= b - a)%Q.
Proof. intros P a b m m' H H'. split; [exact (holds_unique P a b m H m' H')|exact (holds_bound P a b m H)]. Qed.
Print Assumptions C33_shares_are_unique.

Theorem C33_perfect_links : forall draw over fuel g p sim A LA, graph_ok g -> no_loops g -> source_ok g -> (forall u v, arc_type g u v (Some (ELink WIRELESS_BACKHAUL)) -> arc g v u) -> (0 < sim)%Q -> (p == 100)%Q ->
  (forall k n, joined g k -> (0 < fst (draw k n))%Q /\ (0 <= snd (draw k n))%Q) -> (forall k, joined g k -> (sim <= starts draw (p / 100) (1 - p / 100) k fuel)%Q) -> (forall n, over n = false) ->
  compute_availability draw over fuel g p sim = Ok (A, LA) -> (forall d v, dget A d = Some v -> v == 1)%Q /\ (forall k v, dget LA k = Some v -> v == 1)%Q.
Proof. exact perfect. Qed.
Print Assumptions C33_perfect_links.

Theorem C33_bad_arguments : forall draw over fuel g p sim, (p < 0)%Q \/ (100 < p)%Q \/ (sim <= 0)%Q -> compute_availability draw over fuel g p sim = Err OptExn.
Proof. intros draw over fuel g p sim [H|[H|H]]; [exact (bad_percentage draw over fuel g p sim (or_introl H))|exact (bad_percentage draw over fuel g p sim (or_intror H))|exact (bad_length draw over fuel g p sim H)]. Qed.
Print Assumptions C33_bad_arguments.

Theorem C33_one_way_link : forall draw over fuel g p sim u v, graph_ok g -> source_ok g -> (0 <= p)%Q -> (p <= 100)%Q -> (0 < sim)%Q -> (forall k, joined g k -> (sim <= starts draw (p / 100) (1 - p / 100) k fuel)%Q) ->
  arc_type g u v (Some (ELink WIRELESS_BACKHAUL)) -> ~ arc g v u -> compute_availability draw over fuel g p sim = Err OptExn.
Proof. exact one_way. Qed.
Print Assumptions C33_one_way_link.

Theorem C33_no_source : forall draw over fuel g p sim, ~ node g SUPERSOURCE -> (0 <= p)%Q -> (p <= 100)%Q -> (0 < sim)%Q -> compute_availability draw over fuel g p sim = Err NetworkXExn.
Proof. exact AvailFinalProofs.no_pop. Qed.
Print Assumptions C33_no_source.

(** Links that are never available pass the check of the argument, but the simulation fails. *)
Theorem C33_zero_availability_refuted : exists draw mcs t f, reachable t /\ ids_apart t /\ (exists i, site_with t f (fun s => s_type s = POP) i) /\ (forall k l, link_stored t k l -> l_tx l <> l_rx l) /\ (forall u v, carries t f u v -> carries t f v u) /\
  (forall k n, 0 < fst (draw k n) /\ 0 < snd (draw k n))%Q /\ (forall k, exists n, 4 <= starts draw (0 / 100) (1 - 0 / 100) k n)%Q /\
  exists N, forall fuel, (N <= fuel)%nat -> compute_availability draw (fun _ => false) fuel (build_digraph mcs t f) 0 4 = Err NetworkXExn.
Proof. exact zero_fails. Qed.
Print Assumptions C33_zero_availability_refuted.

(** When the time limit strikes, the availability of links is not a share of the time that was simulated, though that of demand is. *)
Theorem C33_time_limit_refuted : exists draw over g A LA k v T, graph_ok g /\ no_loops g /\ source_ok g /\ (forall u v, arc_type g u v (Some (ELink WIRELESS_BACKHAUL)) -> arc g v u) /\
  compute_availability draw over 20 g 50 4 = Ok (A, LA) /\ (0 < T)%Q /\ (T < 4)%Q /\
  (forall d w, dget A d = Some w -> holds_for (fun s => linked (works draw (50 / 100) (1 - 50 / 100) g s) d) 0 T (w * T)) /\
  dget LA k = Some v /\ ~ holds_for (fun s => ~ down draw (50 / 100) (1 - 50 / 100) k s) 0 T (v * T) /\ holds_for (fun s => ~ down draw (50 / 100) (1 - 50 / 100) k s) 0 T (v * 4).
Proof. exact links_not_rescaled. Qed.
Print Assumptions C33_time_limit_refuted.
