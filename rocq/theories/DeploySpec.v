(** What C35 means. *)
From Coq Require Import QArith.
From Verif Require Import Base Dict TopologyModel TopologySpec GraphSpec.
Local Open Scope list_scope.

Definition is_active (st : status) : Prop := st = PROPOSED \/ st = EXISTING.
(** every link that has sectors has two stored ones, on its own ends (the link constructor and C03) *)
Definition sectors_stored (t : topo) : Prop := forall k l a b, link_stored t k l -> l_sectors l = Some (a, b) ->
  k_site a = l_tx l /\ k_site b = l_rx l /\
  (exists x, sector_stored t (key_id a) x /\ x_key x = a) /\ (exists y, sector_stored t (key_id b) y /\ x_key y = b).
(** the id of the sector a link leaves from *)
Definition leaves_from (l : link) (s : option string) : Prop :=
  match l_sectors l, s with Some (a, _), Some i => key_id a = i | None, None => True | _, _ => False end.

Section Angles.
Variables (geom : string -> string -> string -> result (Q * Q)) (channel : string -> Z) (act : bool) (t : topo).
(** links the rules look at: wireless, and active when only active ones are asked for *)
Definition looked_at (k : string) (l : link) : Prop := link_stored t k l /\ l_wireless l = true /\ (act = true -> is_active (l_status l)).
(** two such links from one site [i], to [a] and [b] *)
Definition fork (i a b : string) (l1 l2 : link) : Prop :=
  exists k1 k2, looked_at k1 l1 /\ looked_at k2 l2 /\ l_tx l1 = i /\ l_tx l2 = i /\ l_rx l1 = a /\ l_rx l2 = b /\ a <> b.
(** they leave from different sectors which, for active links, use the same channel *)
Definition interfering (l1 l2 : link) : Prop := exists s1 s2, leaves_from l1 s1 /\ leaves_from l2 s2 /\ s1 <> s2 /\
  (act = true -> exists c1 c2, s1 = Some c1 /\ s2 = Some c2 /\ channel c1 = channel c2).
(** the triples of a rule: sorted, and reported when the angle and length ratio break the rule *)
Definition breaks (rule : Q -> Q -> Prop) (q : string * string * string) : Prop :=
  let '(i, a, b) := q in str_ltb a b = true /\
  exists l1 l2 angle ratio, fork i a b l1 l2 /\ interfering l1 l2 /\ geom i a b = Ok (angle, ratio) /\ rule angle ratio.
(** every fork can be measured, and the sectors of active ones are known unless both are missing *)
Definition measurable : Prop := forall i a b l1 l2, fork i a b l1 l2 ->
  (exists g, geom i a b = Ok g) /\ (act = true -> forall s1 s2, leaves_from l1 s1 -> leaves_from l2 s2 -> s1 <> s2 -> s1 <> None /\ s2 <> None).
End Angles.
Definition same_in_both_orders (geom : string -> string -> string -> result (Q * Q)) : Prop := forall i a b, geom i a b = geom i b a.

(** C35, sector limits: the active links that leave from sector [s] and end in a sector of the given kind *)
Definition connection (t : topo) (s : string) (cn : bool) (k : string) : Prop :=
  exists l a b, link_stored t k l /\ is_active (l_status l) /\ l_sectors l = Some (a, b) /\ key_id a = s /\ k_cn b = cn.
Definition counted (P : string -> Prop) (n : nat) : Prop := exists ks, NoDup ks /\ (forall k, In k ks <-> P k) /\ List.length ks = n.
Definition over_limit (t : topo) (dn_dn dn_total : Z) (s : string) : Prop :=
  (exists x, sector_stored t s x /\ k_cn (x_key x) = false /\ is_active (x_status x)) /\
  exists dn cn, counted (connection t s false) dn /\ counted (connection t s true) cn /\ (Z.of_nat dn > dn_dn \/ Z.of_nat dn + Z.of_nat cn > dn_total)%Z.
(** the active sectors at the other end of the links of [s], whatever the status of the link *)
Definition linked_sector (t : topo) (s r : string) : Prop :=
  exists k l a b x, link_stored t k l /\ l_sectors l = Some (a, b) /\ key_id a = s /\ key_id b = r /\ sector_stored t r x /\ is_active (x_status x).
