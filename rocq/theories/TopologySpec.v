(** What the topology properties C01-C05 mean, without reference to how the store works. *)
From Verif Require Import Base Dict TopologyModel.

(** A dash-free string.  Site ids are md5 hexadecimal digests, hence dash-free. *)
Definition no_dash (s : string) : Prop := ~ In "-"%char (list_ascii_of_string s).

(** Arguments the constructors can produce: a site's id is dash-free; a link's sectors,
    if any, are mounted on its own end sites (link.py 79-92, 161-175). *)
Definition link_args_ok (l : link) : Prop :=
  match l_sectors l with None => True | Some (a, b) => k_site a = l_tx l /\ k_site b = l_rx l end.
Definition op_ok (o : op) : Prop :=
  match o with
  | AddSite s => no_dash (s_id s)
  | AddLink l => link_args_ok l
  | _ => True
  end.
(** States a program can reach from an empty topology, whether or not calls raised. *)
Definition reachable (t : topo) : Prop := exists ops, Forall op_ok ops /\ t = run ops empty_topo.

Definition site_stored (t : topo) (i : string) : Prop := exists s, dget (t_sites t) i = Some s.
Definition link_stored (t : topo) (k : string) (l : link) : Prop := dget (t_links t) k = Some l.
Definition sector_stored (t : topo) (i : string) (x : sector) : Prop := dget (t_sectors t) i = Some x.
(** [index[a][b] == k] *)
Definition edge_in (c : dict string (dict string string)) (a b k : string) : Prop :=
  exists r, dget c a = Some r /\ dget r b = Some k.
Definition listed_in (c : dict string (list string)) (s i : string) : Prop :=
  exists r, dget c s = Some r /\ In i r.

(** The neighbour indexes describe exactly the stored links. *)
Definition link_indexes_agree (t : topo) : Prop :=
  (forall a b k, edge_in (t_conn t) a b k <-> exists l, link_stored t k l /\ l_tx l = a /\ l_rx l = b) /\
  (forall a b k, edge_in (t_rconn t) b a k <-> exists l, link_stored t k l /\ l_tx l = a /\ l_rx l = b).
(** Tables are keyed by the stored object's own id and have no dangling ends. *)
Definition tables_closed (t : topo) : Prop :=
  (forall i s, dget (t_sites t) i = Some s -> s_id s = i) /\
  (forall k l, link_stored t k l -> k = l_id l /\ site_stored t (l_tx l) /\ site_stored t (l_rx l)) /\
  (forall i x, sector_stored t i x -> i = x_id x /\ site_stored t (x_site x)).
(** The sector index lists every stored sector under its site ... *)
Definition sector_index_complete (t : topo) : Prop :=
  forall i x, sector_stored t i x -> listed_in (t_secidx t) (x_site x) i.
(** ... and nothing else. *)
Definition sector_index_sound (t : topo) : Prop :=
  forall s i, listed_in (t_secidx t) s i -> exists x, sector_stored t i x /\ x_site x = s.

(** Incidence. *)
Definition touches (l : link) (i : string) : Prop := l_tx l = i \/ l_rx l = i.
Definition has_sectors (t : topo) (i : string) : Prop := exists k x, sector_stored t k x /\ x_site x = i.

(** Every call of a history returned normally. *)
Fixpoint all_returned (ops : list op) (t : topo) : Prop :=
  match ops with
  | [] => True
  | o :: r => fst (run_op o t) = Ok tt /\ all_returned r (snd (run_op o t))
  end.
(** A query returned [l], which lists each site of [P] exactly once. *)
Definition lists_exactly (q : result (list site)) (P : site -> Prop) : Prop :=
  exists l, q = Ok l /\ NoDup l /\ forall s, In s l <-> P s.
Definition successor (t : topo) (i : string) (wireless_only : bool) (s : site) : Prop :=
  exists k l, link_stored t k l /\ l_tx l = i /\ dget (t_sites t) (l_rx l) = Some s /\
              (wireless_only = true -> l_wireless l = true).
Definition predecessor (t : topo) (i : string) (wireless_only : bool) (s : site) : Prop :=
  exists k l, link_stored t k l /\ l_rx l = i /\ dget (t_sites t) (l_tx l) = Some s /\
              (wireless_only = true -> l_wireless l = true).
(** Every stored link has a stored reverse link of the same kind. *)
Definition links_symmetric (t : topo) : Prop :=
  forall k l, link_stored t k l ->
    exists k' l', link_stored t k' l' /\ l_tx l' = l_rx l /\ l_rx l' = l_tx l /\ l_wireless l' = l_wireless l.
(** The link refers to the sector with id [i]. *)
Definition link_uses (i : string) (l : link) : Prop :=
  exists a b, l_sectors l = Some (a, b) /\ (key_id a = i \/ key_id b = i).
(** Same content, possibly inserted in another order. *)
Definition same_content {V} (d d' : dict string V) : Prop := forall k, dget d k = dget d' k.
