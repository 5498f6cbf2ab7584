(** Vocabulary for the plan read from a solver's answer (C16, C50-C52). *)
From Coq Require Import QArith.
From Verif Require Import Base Dict TopologyModel TopologySpec GraphSpec SetupModel IlpModel IlpSpec ExtractModel.
Local Open Scope Q_scope.

(** what the plan says *)
Definition site_on (o : solution) (i : string) : Prop := dget (o_site o) i = Some 1%Z.
Definition site_off (o : solution) (i : string) : Prop := dget (o_site o) i = Some 0%Z.
Definition link_on (o : solution) (l : link) : Prop := dget (o_link o) (l_tx l, l_rx l) = Some 1%Z.
Definition link_off (o : solution) (l : link) : Prop := dget (o_link o) (l_tx l, l_rx l) = Some 0%Z.
Definition sector_on (o : solution) (x : sector) : Prop := dget (o_sector o) (x_site x, x_id x) = Some 1%Z.
Definition sector_off (o : solution) (x : sector) : Prop := dget (o_sector o) (x_site x, x_id x) = Some 0%Z.
Definition is_odd (o : solution) (i : string) : Prop := dget (o_odd o) i = Some 1%Z /\ dget (o_even o) i = Some 0%Z.
Definition is_even (o : solution) (i : string) : Prop := dget (o_odd o) i = Some 0%Z /\ dget (o_even o) i = Some 1%Z.
Definition no_polarity (o : solution) (i : string) : Prop := dget (o_odd o) i = Some 0%Z /\ dget (o_even o) i = Some 0%Z.
Definition planned (o : solution) (e : edge) : Q := match dget (o_flow o) e with Some q => q | None => 0 end.
Definition missing (o : solution) (n : string) : Q := match dget (o_short o) n with Some q => q | None => 0 end.

(** the sectors a link refers to are in the topology, on the sites the link joins *)
Definition sectors_present (t : topo) : Prop :=
  forall k l a b, link_stored t k l -> l_sectors l = Some (a, b) ->
    (exists x, sector_stored t (key_id a) x /\ x_site x = l_tx l) /\
    (exists y, sector_stored t (key_id b) y /\ x_site y = l_rx l).
(** the site serves a consumer directly *)
Definition serves (t : topo) (i : string) : Prop := exists k d, dget (t_demands t) k = Some d /\ In i (d_sites d).
(** two sectors of the same radio node *)
Definition node_of (x : sector) : string * nat := (x_site x, k_node (x_key x)).
(** the links that end at a sector's node *)
Definition uses_node (t : topo) (l : link) (n : string * nat) : Prop :=
  exists a b x, l_sectors l = Some (a, b) /\ node_of x = n /\
    (sector_stored t (key_id a) x /\ x_site x = l_tx l \/ sector_stored t (key_id b) x /\ x_site x = l_rx l).

(** the price of a plan: every chosen site that does not exist yet, and every radio node on such a
    site with a chosen sector *)
Definition pays_site (t : topo) (o : solution) (i : string) : Prop :=
  exists s, dget (t_sites t) i = Some s /\ s_status s <> EXISTING /\ site_on o i.
Definition pays_node (t : topo) (o : solution) (n : string * nat) : Prop :=
  exists k x s, sector_stored t k x /\ node_of x = n /\ sector_on o x /\ dget (t_sites t) (x_site x) = Some s /\ s_status s <> EXISTING.
Definition site_price (ps : params) (t : topo) (i : string) : Q :=
  match dget (t_sites t) i with Some s => p_capex ps (s_type s) | None => 0 end.
