(** What C76 means. *)
From Coq Require Import QArith.
From Verif Require Import Base Dict TopologyModel TopologySpec GraphSpec SetupModel IlpModel IlpSpec.
Local Open Scope list_scope.

Definition same_place (a b : site) : Prop := s_loc a = s_loc b.
Definition usable_status (s : site) : Prop := s_status s <> UNAVAILABLE /\ s_status s <> UNREACHABLE.
(** the POPs of the input that may be used *)
Definition input_pop (t : topo) (i : string) : Prop :=
  exists s, dget (t_sites t) i = Some s /\ s_type s = POP /\ usable_status s.
(** a DN that may become an extra POP: no POP stands at its place *)
Definition pop_at (t : topo) (s : site) : Prop :=
  exists j sj, dget (t_sites t) j = Some sj /\ s_type sj = POP /\ same_place sj s.
Definition eligible (t : topo) (i : string) : Prop :=
  exists s, dget (t_sites t) i = Some s /\ s_type s = DN /\ ~ pop_at t s.
Definition usable_dn (t : topo) (i : string) : Prop :=
  eligible t i /\ exists s, dget (t_sites t) i = Some s /\ usable_status s.
(** the sites that may be POPs of the answer *)
Definition possible_pop (t : topo) (i : string) : Prop := input_pop t i \/ usable_dn t i.
(** no other site at the same place *)
Definition lone (t : topo) (i : string) : Prop :=
  forall s j sj, dget (t_sites t) i = Some s -> dget (t_sites t) j = Some sj -> same_place sj s -> j = i.
Definition proposed_or_existing (t : topo) (i : string) : Prop :=
  exists s, dget (t_sites t) i = Some s /\ (s_status s = PROPOSED \/ s_status s = EXISTING).
(** at most one POP to be used stands at a place *)
Definition pops_apart (t : topo) : Prop :=
  forall i j si sj, input_pop t i -> input_pop t j -> dget (t_sites t) i = Some si -> dget (t_sites t) j = Some sj ->
    same_place si sj -> i = j.

(** [t0] is the access network of [t]: eligible DNs are POPs, and only the links into CNs are left *)
Definition access_view (t t0 : topo) : Prop :=
  dkeys (t_sites t0) = dkeys (t_sites t) /\ t_demands t0 = t_demands t /\ t_sectors t0 = t_sectors t /\
  (forall i s, dget (t_sites t) i = Some s -> exists s0, dget (t_sites t0) i = Some s0 /\
     s_id s0 = s_id s /\ s_status s0 = s_status s /\ s_loc s0 = s_loc s /\ s_polarity s0 = s_polarity s /\ s_detected s0 = s_detected s /\
     (eligible t i -> s_type s0 = POP) /\ (~ eligible t i -> s_type s0 = s_type s)) /\
  (forall k l, link_stored t0 k l <-> link_stored t k l /\ exists s, dget (t_sites t) (l_rx l) = Some s /\ s_type s = CN).
