(** What C16-C19 mean: the planning problem in terms of the topology. *)
From Coq Require Import QArith.
From Verif Require Import Base Dict TopologyModel TopologySpec GraphSpec SetupModel IlpModel.
Local Open Scope Q_scope.

(** [l] lists each element of [P] exactly once *)
Definition lists {A} (l : list A) (P : A -> Prop) : Prop := NoDup l /\ forall x, In x l <-> P x.
Fixpoint total {A} (f : A -> Q) (l : list A) : Q := match l with [] => 0 | x :: r => f x + total f r end.

(** a demand site with [num_sites] = n stands for n consumers, named [id], [id_1], ..., [id_(n-1)] *)
Definition consumer_of (at_ : attrs) (d : demand) (n : string) : Prop :=
  exists k, (k < a_num at_ (d_id d))%nat /\
    n = match k with O => d_id d | S _ => append (d_id d) (append "_" (dec k)) end.
Definition consumer (at_ : attrs) (t : topo) (n : string) : Prop :=
  exists i d, dget (t_demands t) i = Some d /\ consumer_of at_ d n.
(** all names are different: the super-source, the sites, the consumers; and consumers are connected
    to sites of the topology *)
Definition names_ok (at_ : attrs) (t : topo) : Prop :=
  ~ site_stored t SUPERSOURCE /\ ~ consumer at_ t SUPERSOURCE /\
  (forall n, consumer at_ t n -> ~ site_stored t n) /\
  (forall i d i' d' n, dget (t_demands t) i = Some d -> dget (t_demands t) i' = Some d' ->
     consumer_of at_ d n -> consumer_of at_ d' n -> i = i') /\
  (forall i d s, dget (t_demands t) i = Some d -> In s (d_sites d) -> site_stored t s).
(** a consumer asks for the demand of its demand site divided by the oversubscription factor *)
Definition wants (ps : params) (at_ : attrs) (t : topo) (n : string) (q : Q) : Prop :=
  exists i d q0, dget (t_demands t) i = Some d /\ consumer_of at_ d n /\ a_demand at_ (d_id d) = Some q0 /\ q = q0 / p_oversubscription ps.
(** the flow network: the super-source feeds the POPs, sites feed the consumers they serve *)
Definition is_pop (t : topo) (i : string) : Prop := exists s, dget (t_sites t) i = Some s /\ s_type s = POP.
Definition flow_edge (at_ : attrs) (t : topo) (e : edge) : Prop :=
  (fst e = SUPERSOURCE /\ is_pop t (snd e)) \/
  (exists i d, dget (t_demands t) i = Some d /\ In (fst e) (d_sites d) /\ consumer_of at_ d (snd e)) \/
  (exists k l, link_stored t k l /\ e = (l_tx l, l_rx l)).
Definition out_of (at_ : attrs) (t : topo) (i : string) (es : list edge) : Prop := lists es (fun e => flow_edge at_ t e /\ fst e = i).
Definition into (at_ : attrs) (t : topo) (i : string) (es : list edge) : Prop := lists es (fun e => flow_edge at_ t e /\ snd e = i).
Definition flow (v : var -> Q) (e : edge) : Q := v (VFlow (fst e) (snd e)).

(** backhaul sites and polarity *)
Definition backhaul_site (t : topo) (i : string) : Prop :=
  exists s, dget (t_sites t) i = Some s /\ (s_type s = POP \/ s_type s = DN).
Definition opposite (v : var -> Q) (i j : string) : Prop :=
  (v (VOdd i) == 1 /\ v (VOdd j) == 0) \/ (v (VOdd i) == 0 /\ v (VOdd j) == 1).

(** the wireless links transmitting from, and received by, a sector *)
Definition sends (t : topo) (x : sector) (e : edge) : Prop :=
  exists k l a b, link_stored t k l /\ l_wireless l = true /\ l_sectors l = Some (a, b) /\ key_id a = x_id x /\
    l_tx l = x_site x /\ e = (l_tx l, l_rx l).
Definition receives (t : topo) (x : sector) (e : edge) : Prop :=
  exists k l a b, link_stored t k l /\ l_wireless l = true /\ l_sectors l = Some (a, b) /\ key_id b = x_id x /\
    l_rx l = x_site x /\ e = (l_tx l, l_rx l).
Definition share (v : var -> Q) (c : nat) (e : edge) : Q := v (VTdm (fst e) (snd e) c).

(** order of the site types: CN < DN < POP *)
Definition rank (ty : site_type) : nat := match ty with CN => 0 | DN => 1 | POP => 2 end.
Definition selected (v : var -> Q) (i : string) : Prop := v (VSite i) == 1.
(** sites that the input already uses: proposed or existing sites, ends of proposed or existing links
    and, if POPs are always active, the POPs not ruled out *)
Definition in_use (ps : params) (t : topo) (i : string) (s : site) : Prop :=
  s_status s = PROPOSED \/ s_status s = EXISTING \/
  (exists k l, link_stored t k l /\ touches l i /\ (l_status l = PROPOSED \/ l_status l = EXISTING)) \/
  (p_always_active_pops ps = true /\ s_type s = POP /\ s_status s <> UNAVAILABLE /\ s_status s <> UNREACHABLE).
