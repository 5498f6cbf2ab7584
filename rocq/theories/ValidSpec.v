(** When the statuses of a topology fit together. *)
From Verif Require Import Base Dict TopologyModel TopologySpec.

Definition deployed (s : status) : Prop := s = PROPOSED \/ s = EXISTING.
Definition excluded (s : status) : Prop := s = UNAVAILABLE \/ s = UNREACHABLE.
(** Both ends of a link have a property: sites, and sectors with [P None] for a link without sectors *)
Definition end_sites (t : topo) (l : link) (P : status -> Prop) : Prop :=
  forall i s, i = l_tx l \/ i = l_rx l -> dget (t_sites t) i = Some s -> P (s_status s).
Definition end_sectors (sec : seckey -> status) (l : link) (P : status -> Prop) (none : Prop) : Prop :=
  match l_sectors l with None => none | Some (a, b) => P (sec a) /\ P (sec b) end.
(** The status of a link suits its ends: existing links join existing sites and sectors, proposed links deployed ones, and
    candidate links none that are excluded *)
Definition suits (sec : seckey -> status) (t : topo) (l : link) : Prop :=
  (l_status l = EXISTING -> end_sites t l (eq EXISTING) /\ end_sectors sec l (eq EXISTING) False)
  /\ (l_status l = PROPOSED -> end_sites t l deployed /\ end_sectors sec l deployed False)
  /\ (l_status l = CANDIDATE -> end_sites t l (fun s => ~ excluded s) /\ end_sectors sec l (fun s => ~ excluded s) True).
Definition reverse_of (t : topo) (l r : link) : Prop := exists k, link_stored t k r /\ l_tx r = l_rx l /\ l_rx r = l_tx l.
(** Clients do not transmit (C04 and the constructor of links) *)
Definition typed (t : topo) : Prop :=
  forall k l, link_stored t k l ->
    (forall s, dget (t_sites t) (l_tx l) = Some s -> s_type s <> CN)
    /\ (forall s, dget (t_sites t) (l_rx l) = Some s -> (l_rx_cn l = true <-> s_type s = CN)).
