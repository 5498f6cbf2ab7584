(** What C39 means. *)
From Verif Require Import Base Dict TopologyModel TopologySpec GraphSpec ApplyModel.

(** is the component with this key chosen by the plan? *)
Definition picked {K} `{EqB K} (d : dict K Z) (k : K) : Prop := dget d k = Some 1%Z.
(** the status a component gets from the plan *)
Definition planned_status (old : status) (chosen : Prop) (new : status) : Prop :=
  match old with
  | EXISTING | UNAVAILABLE | UNREACHABLE => new = old
  | PROPOSED | CANDIDATE => (chosen -> new = PROPOSED) /\ (~ chosen -> new = CANDIDATE)
  end.
Definition planned_polarity (p : plan) (i : string) (q : polarity) : Prop :=
  (picked (p_odd p) i -> q = ODD) /\ (~ picked (p_odd p) i -> picked (p_even p) i -> q = EVEN) /\
  (~ picked (p_odd p) i -> ~ picked (p_even p) i -> q = UNASSIGNED).
(** the two topologies differ in statuses and polarities only *)
Definition same_shape (t t' : topo) : Prop :=
  dkeys (t_sites t') = dkeys (t_sites t) /\ dkeys (t_links t') = dkeys (t_links t) /\
  dkeys (t_sectors t') = dkeys (t_sectors t) /\
  t_demands t' = t_demands t /\ t_secidx t' = t_secidx t /\ t_conn t' = t_conn t /\ t_rconn t' = t_rconn t /\
  (forall i s, dget (t_sites t) i = Some s -> exists s', dget (t_sites t') i = Some s' /\
     s_id s' = s_id s /\ s_type s' = s_type s /\ s_loc s' = s_loc s /\ s_detected s' = s_detected s) /\
  (forall k l, dget (t_links t) k = Some l -> exists l', dget (t_links t') k = Some l' /\
     l_tx l' = l_tx l /\ l_rx l' = l_rx l /\ l_wireless l' = l_wireless l /\ l_rx_cn l' = l_rx_cn l /\ l_sectors l' = l_sectors l) /\
  (forall k x, dget (t_sectors t) k = Some x -> exists x', dget (t_sectors t') k = Some x' /\ x_key x' = x_key x).
(** [t1] is [t] with every component as the plan says *)
Definition as_planned (p : plan) (t t1 : topo) : Prop :=
  same_shape t t1 /\
  (forall i s s1, dget (t_sites t) i = Some s -> dget (t_sites t1) i = Some s1 ->
     planned_status (s_status s) (picked (p_sites p) i) (s_status s1) /\ planned_polarity p i (s_polarity s1)) /\
  (forall k x x1, dget (t_sectors t) k = Some x -> dget (t_sectors t1) k = Some x1 ->
     planned_status (x_status x) (picked (p_sectors p) (x_site x, k)) (x_status x1)) /\
  (forall k l l1, dget (t_links t) k = Some l -> dget (t_links t1) k = Some l1 ->
     planned_status (l_status l) (picked (p_links p) (l_tx l, l_rx l)) (l_status l1)).
(** the plan fits the topology: no site is both odd and even; a sector that can be decided is on a site that can be
    active, and is chosen only with it; a link that can be decided joins such sites, and is chosen only with them *)
Definition usable_site (p : plan) (t : topo) (i : string) (need : Prop) : Prop :=
  forall st, site_status_of t i = Some st ->
    match st with
    | EXISTING => True
    | UNAVAILABLE | UNREACHABLE => False
    | PROPOSED | CANDIDATE => need -> picked (p_sites p) i
    end.
Definition can_decide (st : status) : Prop := st = PROPOSED \/ st = CANDIDATE.
Definition fits (p : plan) (t : topo) : Prop :=
  (forall i, site_stored t i -> ~ (picked (p_odd p) i /\ picked (p_even p) i)) /\
  (forall k x, sector_stored t k x -> can_decide (x_status x) -> usable_site p t (x_site x) (picked (p_sectors p) (x_site x, k))) /\
  (forall k l, link_stored t k l -> can_decide (l_status l) ->
     usable_site p t (l_tx l) (picked (p_links p) (l_tx l, l_rx l)) /\ usable_site p t (l_rx l) (picked (p_links p) (l_tx l, l_rx l))).
Definition in_use : option (list status) := Some [PROPOSED; EXISTING].
(** cut off from all POPs over the active sites and links *)
Definition disconnected (t : topo) (i : string) : Prop := forall n, ~ route t in_use i n.
(** [t'] is the plan [t1] without the disconnected parts *)
Definition drop_if (b : Prop) (old new : status) : Prop :=
  (old = PROPOSED /\ b -> new = CANDIDATE) /\ (~ (old = PROPOSED /\ b) -> new = old).
Definition trimmed (t1 t' : topo) : Prop :=
  same_shape t1 t' /\
  (forall i s s', dget (t_sites t1) i = Some s -> dget (t_sites t') i = Some s' ->
     drop_if (disconnected t1 i /\ has_sectors t1 i) (s_status s) (s_status s') /\ s_polarity s' = s_polarity s) /\
  (forall k x x', dget (t_sectors t1) k = Some x -> dget (t_sectors t') k = Some x' ->
     drop_if (disconnected t1 (x_site x)) (x_status x) (x_status x')) /\
  (forall k l l', dget (t_links t1) k = Some l -> dget (t_links t') k = Some l' ->
     drop_if (site_status_of t' (l_tx l) = Some CANDIDATE \/ site_status_of t' (l_rx l) = Some CANDIDATE) (l_status l) (l_status l')).
Definition is_active (st : status) : Prop := st = PROPOSED \/ st = EXISTING.
(** active links join active sites, active sectors are on active sites *)
Definition consistent (t : topo) : Prop :=
  (forall k l, link_stored t k l -> is_active (l_status l) ->
     exists a b, site_status_of t (l_tx l) = Some a /\ site_status_of t (l_rx l) = Some b /\ is_active a /\ is_active b) /\
  (forall k x, sector_stored t k x -> is_active (x_status x) -> exists a, site_status_of t (x_site x) = Some a /\ is_active a).
(** existing links and sectors are on existing sites (C07 proves it of links) *)
Definition existing_supported (t : topo) : Prop :=
  (forall k l, link_stored t k l -> l_status l = EXISTING -> site_status_of t (l_tx l) = Some EXISTING /\ site_status_of t (l_rx l) = Some EXISTING) /\
  (forall k x, sector_stored t k x -> x_status x = EXISTING -> site_status_of t (x_site x) = Some EXISTING).
