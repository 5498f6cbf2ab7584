(** What C08 and C09 mean. *)
From Verif Require Import Base Dict TopologyModel TopologySpec.

(** A topology whose tables have unique keys, whose neighbour indexes describe exactly its
    links and in which nothing dangles (C01 proves this of every topology built with the API). *)
Definition well_formed (t : topo) : Prop :=
  dwf (t_sites t) /\ dwf (t_links t) /\ dwf (t_sectors t) /\ dwf (t_demands t) /\
  link_indexes_agree t /\ tables_closed t.

Definition allowed (sf : option (list status)) (s : status) : Prop :=
  match sf with None => True | Some l => In s l end.
(** [route t sf i n]: site [i] is reached from some POP over [n] directed links, every
    site and link on the way having an allowed status. *)
Inductive route (t : topo) (sf : option (list status)) : string -> nat -> Prop :=
| route_pop i s : dget (t_sites t) i = Some s -> s_type s = POP -> allowed sf (s_status s) -> route t sf i 0
| route_link i n k l s : route t sf i n -> link_stored t k l -> l_tx l = i -> allowed sf (l_status l) ->
    dget (t_sites t) (l_rx l) = Some s -> allowed sf (s_status s) -> route t sf (l_rx l) (S n).
Definition shortest (t : topo) (sf : option (list status)) (i : string) (n : nat) : Prop :=
  route t sf i n /\ forall m, route t sf i m -> n <= m.

Definition usable : option (list status) := Some [PROPOSED; EXISTING; CANDIDATE].
(** Sites that must be marked: CANDIDATE, and not within the hop limit of any POP. *)
Definition within (max_hops : option nat) (n : nat) : Prop :=
  match max_hops with None => True | Some m => m = 0 \/ n <= m end.
Definition cut_off (t : topo) (max_hops : option nat) (i : string) : Prop :=
  exists s, dget (t_sites t) i = Some s /\ s_status s = CANDIDATE /\
    ~ exists n, route t usable i n /\ within max_hops n.

Definition site_status_of (t : topo) (i : string) : option status := option_map s_status (dget (t_sites t) i).
Definition link_status_of (t : topo) (k : string) : option status := option_map l_status (dget (t_links t) k).
Definition sector_status_of (t : topo) (k : string) : option status := option_map x_status (dget (t_sectors t) k).

(** The two topologies differ in statuses only. *)
Definition same_but_statuses (t t' : topo) : Prop :=
  dkeys (t_sites t') = dkeys (t_sites t) /\ dkeys (t_links t') = dkeys (t_links t) /\
  dkeys (t_sectors t') = dkeys (t_sectors t) /\
  t_demands t' = t_demands t /\ t_secidx t' = t_secidx t /\ t_conn t' = t_conn t /\ t_rconn t' = t_rconn t /\
  (forall i s, dget (t_sites t) i = Some s -> exists s', dget (t_sites t') i = Some s' /\
     s_id s' = s_id s /\ s_type s' = s_type s /\ s_loc s' = s_loc s /\ s_polarity s' = s_polarity s /\ s_detected s' = s_detected s) /\
  (forall k l, dget (t_links t) k = Some l -> exists l', dget (t_links t') k = Some l' /\
     l_tx l' = l_tx l /\ l_rx l' = l_rx l /\ l_wireless l' = l_wireless l /\ l_rx_cn l' = l_rx_cn l /\ l_sectors l' = l_sectors l) /\
  (forall k x, dget (t_sectors t) k = Some x -> exists x', dget (t_sectors t') k = Some x' /\ x_key x' = x_key x).

(** [t'] is [t] with exactly the cut-off sites, the links touching them and the sectors of
    unreachable sites set to UNREACHABLE. *)
Definition marked_exactly (max_hops : option nat) (t t' : topo) : Prop :=
  same_but_statuses t t' /\
  (forall i, cut_off t max_hops i -> site_status_of t' i = Some UNREACHABLE) /\
  (forall i, ~ cut_off t max_hops i -> site_status_of t' i = site_status_of t i) /\
  (forall k l, link_stored t k l -> (exists i, touches l i /\ cut_off t max_hops i) -> link_status_of t' k = Some UNREACHABLE) /\
  (forall k l, link_stored t k l -> ~ (exists i, touches l i /\ cut_off t max_hops i) -> link_status_of t' k = Some (l_status l)) /\
  (forall k x, sector_stored t k x -> site_status_of t' (x_site x) = Some UNREACHABLE -> sector_status_of t' k = Some UNREACHABLE) /\
  (forall k x, sector_stored t k x -> site_status_of t' (x_site x) <> Some UNREACHABLE -> sector_status_of t' k = Some (x_status x)).

(** The marking is possible: no link touching a cut-off site and no sector of an
    unreachable or cut-off site has an immutable status, and no such link has an
    UNAVAILABLE end. *)
Definition markable (max_hops : option nat) (t : topo) : Prop :=
  (forall k l i, link_stored t k l -> touches l i -> cut_off t max_hops i ->
     l_status l <> EXISTING /\ l_status l <> UNAVAILABLE /\
     site_status_of t (l_tx l) <> Some UNAVAILABLE /\ site_status_of t (l_rx l) <> Some UNAVAILABLE) /\
  (forall k x, sector_stored t k x ->
     cut_off t max_hops (x_site x) \/ site_status_of t (x_site x) = Some UNREACHABLE ->
     x_status x <> EXISTING /\ x_status x <> UNAVAILABLE).
