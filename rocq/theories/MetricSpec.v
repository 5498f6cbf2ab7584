(** What the metrics of the report mean (C73). *)
From Coq Require Import QArith Sorted Permutation.
From Verif Require Import Base Dict TopologyModel TopologySpec CountSpec IlpSpec ReportSpec.
Local Open Scope Q_scope.

Definition num (n : nat) : Q := inject_Z (Z.of_nat n).
(** a DN sector of the plan, by id *)
Definition dn_sector (t : topo) (k : string) : Prop := exists x, sector_stored t k x /\ k_cn (x_key x) = false /\ planned (x_status x).
(** a link of the plan is of type [ty] and uses the DN sector [k] *)
Definition attached (t : topo) (ty : link_type) (k : string) (l : link) : Prop :=
  plan_link t l /\ l_type l = ty /\ exists a b, l_sectors l = Some (a, b) /\ (key_id a = k \/ (ty = WIRELESS_BACKHAUL /\ key_id b = k)).
(** the sectors of a link are those the report needs *)
Definition countable (t : topo) (l : link) : Prop :=
  exists a b, l_sectors l = Some (a, b) /\ (l_type l <> ETHERNET -> dn_sector t (key_id a)) /\ (l_type l = WIRELESS_BACKHAUL -> dn_sector t (key_id b)).
(** the sites that lose service when one fails *)
Definition lost (d : dict string (list string)) (i : string) : nat := match dget d i with Some l => List.length l | None => 0%nat end.
(** two sites, in the order of their ids, joined by a link of the plan of type [ty] and class [c] *)
Definition of_class (t : topo) (mcs : link -> nat) (ty : link_type) (c : nat) (q : string * string) : Prop :=
  exists l, plan_link t l /\ l_type l = ty /\ mcs l = c /\ str_ltb (snd q) (fst q) = false /\ ((l_tx l = fst q /\ l_rx l = snd q) \/ (l_rx l = fst q /\ l_tx l = snd q)).
Definition one_class (t : topo) (mcs : link -> nat) : Prop := forall l l', plan_link t l -> plan_link t l' -> opposite_ways l l' -> l_type l = l_type l' -> mcs l = mcs l'.
(** [f p] is the [p]-th percentile of the numbers [l]: linear between the numbers in their order *)
Definition percentiles (l : list Q) (f : Q -> Q) : Prop :=
  exists v, Permutation v l /\ StronglySorted Qle v /\
  (forall k x y p, nth_error v k = Some x -> nth_error v (S k) = Some y -> 100 * num k <= p * num (List.length v - 1) <= 100 * num (S k) ->
     f p == x + (y - x) * (p / 100 * num (List.length v - 1) - num k)) /\
  (forall x p, v = [x] -> f p == x).
