(** What C65 means. *)
From Coq Require Import ZArith QArith.
From Verif Require OpsSpec.
From Verif Require Import Base Dict TopologyModel TopologySpec GraphSpec NxModel NxSpec.
Local Open Scope list_scope.

Definition in_plan : list status := [PROPOSED; EXISTING].
Definition in_reach : list status := [PROPOSED; EXISTING; CANDIDATE].
(** a site that the active sites of its location exclude *)
Definition shut_out (t : topo) (i : string) : Prop := exists s, dget (t_sites t) i = Some s /\ OpsSpec.excluded t s.
(** an arc that could be used: its link has capacity and its sites are not excluded *)
Definition usable_arc (t : topo) (cap : string -> Q) (x y : string) : Prop :=
  (exists e, arc_of t in_reach x y e) /\ (forall k l, link_stored t k l -> l_tx l = x -> l_rx l = y -> (0 < cap k)%Q) /\ ~ shut_out t x /\ ~ shut_out t y.
Definition minus (E : string -> string -> Prop) (L : list (string * string)) (x y : string) : Prop := E x y /\ ~ In (x, y) L.
Definition minus_pair (E : string -> string -> Prop) (u v : string) (x y : string) : Prop := E x y /\ ~ (x = u /\ y = v) /\ ~ (x = v /\ y = u).
Definition is_demand_site (t : topo) (d : string) : Prop := exists D, dget (t_demands t) d = Some D.
(** [n] is the number of active wireless backhaul links *)
Definition backhaul_count (t : topo) (n : nat) : Prop :=
  exists ks, NoDup ks /\ (forall k, In k ks <-> exists l, link_stored t k l /\ In (l_status l) in_plan /\ l_type l = WIRELESS_BACKHAUL) /\ n = List.length ks.
