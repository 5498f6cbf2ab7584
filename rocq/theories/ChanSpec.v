(** What C80 means: the deployment step in terms of the topology. *)
From Coq Require Import QArith.
From Verif Require Import Base Dict TopologyModel TopologySpec GraphSpec SetupModel IlpModel IlpSpec DeploySpec.
Local Open Scope Q_scope.

(** the links the step decides about: wireless, between two sectors, able to carry something *)
Definition eligible (at_ : attrs) (l : link) : Prop :=
  l_wireless l = true /\ (exists a b, l_sectors l = Some (a, b)) /\ 0 < a_cap at_ (l_tx l, l_rx l).
(** the answer: links used, sectors on a channel *)
Definition used (v : var -> Q) (e : edge) : Prop := v (VActive (fst e) (snd e)) == 1.
Definition tuned (v : var -> Q) (i s : string) (c : nat) : Prop := v (VSector i s c) == 1.
(** the sites of the network: proposed or existing, and of the highest type among those in one place *)
Definition standing (t : topo) (i : string) (s : site) : Prop := dget (t_sites t) i = Some s /\ is_active (s_status s).
Definition deployed (t : topo) (i : string) : Prop :=
  exists s, standing t i s /\
    forall i' s', standing t i' s' -> s_loc s' = s_loc s -> (rank (s_type s') <= rank (s_type s))%nat.
Definition type_is (t : topo) (i : string) (ty : site_type) : Prop := exists s, dget (t_sites t) i = Some s /\ s_type s = ty.
Definition existing_link (t : topo) (e : edge) : Prop :=
  exists k l, link_stored t k l /\ e = (l_tx l, l_rx l) /\ l_status l = EXISTING.
(** links used that leave from a sector, to sites of a kind *)
Definition used_from (at_ : attrs) (t : topo) (v : var -> Q) (x : sector) (kind : string -> Prop) (e : edge) : Prop :=
  exists k l a b, link_stored t k l /\ eligible at_ l /\ l_sectors l = Some (a, b) /\ l_tx l = x_site x /\ key_id a = x_id x /\
    e = (l_tx l, l_rx l) /\ used v e /\ kind (l_rx l).
(** the sectors of client sites, and only those, are client sectors (the Sector constructor) *)
Definition sector_kinds (t : topo) : Prop := forall k x s, sector_stored t k x -> dget (t_sites t) (x_site x) = Some s ->
  (k_cn (x_key x) = true <-> s_type s = CN).
