(** What C64 means: the numbers of components a user reads in the report. *)
From Verif Require Import Base Dict TopologyModel TopologySpec GraphSpec DeploySpec.
Local Open Scope list_scope.

(** [n] is the number of objects with property [P] *)
Definition card {A} (P : A -> Prop) (n : nat) : Prop := exists l, NoDup l /\ (forall x, In x l <-> P x) /\ List.length l = n.
(** [n] is the number of objects with property [P], two of them that are the [same] counting once *)
Definition card_up_to {A} (P : A -> Prop) (same : A -> A -> Prop) (n : nat) : Prop :=
  exists l, (forall x, In x l -> P x) /\ (forall x, P x -> exists y, In y l /\ same x y) /\
    (forall i j x y, nth_error l i = Some x -> nth_error l j = Some y -> same x y -> i = j) /\ List.length l = n.
Definition cardZ {A} (P : A -> Prop) (z : Z) : Prop := exists n, z = Z.of_nat n /\ card P n.

Section Counts.
Variables (hash : Z * Z * Z -> string) (sku : string -> string) (channel : string -> Z) (t : topo).
Definition chosen (act : bool) (st : status) : Prop := act = true -> is_active st.
(** a site, by id *)
Definition a_site (act : bool) (tys : site_type -> Prop) (i : string) : Prop :=
  exists s, dget (t_sites t) i = Some s /\ tys (s_type s) /\ chosen act (s_status s).
(** a position with a site of the type, that has a route from a POP if [conn] *)
Definition a_place (conn : bool) (q : Z * Z * Z * site_type) : Prop :=
  exists i s, dget (t_sites t) i = Some s /\ s_type s = snd q /\ s_loc s = fst q /\ (conn = true -> exists n, route t usable i n).
Definition a_sector (act : bool) (cns : bool -> Prop) (k : string) : Prop :=
  exists x, sector_stored t k x /\ cns (k_cn (x_key x)) /\ chosen act (x_status x).
(** a node, by site, number and kind *)
Definition a_node (act : bool) (q : string * nat * bool) : Prop :=
  exists k x, sector_stored t k x /\ x_site x = fst (fst q) /\ k_node (x_key x) = snd (fst q) /\ k_cn (x_key x) = snd q /\ chosen act (x_status x).
Definition on_type (ty : site_type) (k : string) : Prop :=
  exists x s, sector_stored t k x /\ dget (t_sites t) (x_site x) = Some s /\ s_type s = ty.
(** the links of a type; two of them are the same when they join the same two positions with sites of the same types *)
Definition a_link (act : bool) (ty : link_type) (l : link) : Prop := exists k, link_stored t k l /\ l_type l = ty /\ chosen act (l_status l).
Definition same_end (i j : string) : Prop :=
  exists s s', dget (t_sites t) i = Some s /\ dget (t_sites t) j = Some s' /\ hash (s_loc s) = hash (s_loc s') /\ s_type s = s_type s'.
Definition same_link (l l' : link) : Prop :=
  (same_end (l_tx l) (l_tx l') /\ same_end (l_rx l) (l_rx l')) \/ (same_end (l_tx l) (l_rx l') /\ same_end (l_rx l) (l_tx l')).
(** a site some demand is connected to *)
Definition demanded (i : string) : Prop := exists k d, dget (t_demands t) k = Some d /\ In i (d_sites d).
(** an active CN with links from two different sites, both leaving from active sectors *)
Definition from_active (k i : string) : Prop :=
  exists l a b x, link_stored t k l /\ l_rx l = i /\ l_sectors l = Some (a, b) /\ sector_stored t (key_id a) x /\ is_active (x_status x).
Definition has_backup (i : string) : Prop :=
  (exists s, dget (t_sites t) i = Some s /\ s_type s = CN /\ is_active (s_status s)) /\ exists k k', k <> k' /\ from_active k i /\ from_active k' i.
(** channels *)
Definition ch_of (l : link) (c : Z) : Prop := match l_sectors l with Some (a, _) => channel (key_id a) = c | None => c = (-1)%Z end.
Definition radio (k : string) (l : link) : Prop := link_stored t k l /\ l_wireless l = true /\ is_active (l_status l).
Definition channels_match : Prop := forall k l a b, radio k l -> l_sectors l = Some (a, b) -> channel (key_id a) = channel (key_id b).
Definition both_ways_match : Prop := forall k l k' l' c, radio k l -> radio k' l' -> l_tx l = l_rx l' -> l_rx l = l_tx l' -> ch_of l c -> ch_of l' c.
(** two sites, in the order of their ids, joined by an active radio link on channel [c] *)
Definition on_channel (c : Z) (q : string * string) : Prop :=
  exists k l, radio k l /\ ch_of l c /\ str_ltb (snd q) (fst q) = false /\ ((l_tx l = fst q /\ l_rx l = snd q) \/ (l_rx l = fst q /\ l_tx l = snd q)).
End Counts.
Definition any {A} (x : A) : Prop := True.
