(** What the statistics of the report mean. *)
From Coq Require Import QArith Qabs.
From Verif Require Import Base Dict TopologyModel TopologySpec SetupModel IlpSpec.
Local Open Scope Q_scope.

Definition planned (st : status) : Prop := st = PROPOSED \/ st = EXISTING.
(** the flow assigned to a link *)
Definition assigned (flow : dict (string * string) Q) (l : link) : Q := match dget flow (l_tx l, l_rx l) with Some f => f | None => 0 end.
(** [u] percent of the capacity of the link are used; nothing when it has no capacity *)
Definition uses (flow : dict (string * string) Q) (cap : link -> Q) (l : link) (u : Q) : Prop :=
  (0 < cap l -> u * cap l == 100 * assigned flow l) /\ (cap l <= 0 -> u == 0).
(** the links of a plan; two links that join the same sites in opposite directions *)
Definition plan_link (t : topo) (l : link) : Prop := exists k, link_stored t k l /\ planned (l_status l).
Definition opposite_ways (l l' : link) : Prop := l_tx l' = l_rx l /\ l_rx l' = l_tx l.
Definition no_self_links (t : topo) : Prop := forall k l, link_stored t k l -> l_tx l <> l_rx l.
(** the value a table has for a link *)
Definition entry (u : dict (string * string) Q) (l : link) (q : Q) : Prop := dget u (l_tx l, l_rx l) = Some q.
Definition no_entry (u : dict (string * string) Q) (l : link) : Prop := dget u (l_tx l, l_rx l) = None.
Definition tolerance : Q := 1 # 100000.

(** a link is not used by the routes in any direction *)
Definition off_route (t : topo) (routes : list string) (k : string) : Prop :=
  exists l, link_stored t k l /\ ~ In k routes /\ forall k' l', link_stored t k' l' -> opposite_ways l l' -> ~ In k' routes.

(** average, largest and smallest of some numbers; all 0 when there are none *)
Definition greatest_of (l : list Q) (m : Q) : Prop := (exists x, In x l /\ x == m) /\ forall x, In x l -> x <= m.
Definition least_of (l : list Q) (m : Q) : Prop := (exists x, In x l /\ x == m) /\ forall x, In x l -> m <= x.
Definition sum_of (l : list Q) : Q := fold_right Qplus 0 l.
Definition summary (l : list Q) (avg mx mn : Q) : Prop :=
  match l with
  | [] => avg == 0 /\ mx == 0 /\ mn == 0
  | _ => avg * inject_Z (Z.of_nat (List.length l)) == sum_of l /\ greatest_of l mx /\ least_of l mn
  end.

(** the ids of the links of the plan that leave or enter a site *)
Definition leaving (t : topo) (i : string) (k : string) : Prop := exists l, link_stored t k l /\ planned (l_status l) /\ l_tx l = i.
Definition entering (t : topo) (i : string) (k : string) : Prop := exists l, link_stored t k l /\ planned (l_status l) /\ l_rx l = i.
(** a site and a consumer it serves *)
Definition serves (at_ : attrs) (t : topo) (i : string) (e : string * string) : Prop :=
  fst e = i /\ exists k d, dget (t_demands t) k = Some d /\ In i (d_sites d) /\ consumer_of at_ d (snd e).
