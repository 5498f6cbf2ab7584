(** What C34, C61, C62 and C63 mean. *)
From Coq Require Import QArith Qminmax.
From Verif Require Import Base Dict SumLib TopologyModel TopologySpec GraphSpec.
Local Open Scope Q_scope.

Notation node := (string * nat)%type.
(** the sector belongs to the node: site and number *)
Definition on_node (x : sector) (n : node) : Prop := x_site x = fst n /\ k_node (x_key x) = snd n.
Definition active_status (st : status) : Prop := st = PROPOSED \/ st = EXISTING.
Definition has_sector (P : status -> Prop) (t : topo) (n : node) : Prop := exists k x, sector_stored t k x /\ on_node x n /\ P (x_status x).
(** [q] is the cost of the sites and nodes that satisfy [P], each counted once; a node satisfies it when one of its sectors does *)
Definition expenditure (P : status -> Prop) (node_capex : string -> Q) (site_capex : site_type -> Q) (t : topo) (q : Q) : Prop :=
  exists ns ss, NoDup ns /\ NoDup ss /\
    (forall n, In n ns <-> has_sector P t n) /\
    (forall i, In i ss <-> exists s, dget (t_sites t) i = Some s /\ P (s_status s)) /\
    q == total (fun n => node_capex (fst n)) ns + total (fun i => match dget (t_sites t) i with Some s => site_capex (s_type s) | None => 0 end) ss.
(** the sectors of a node agree on [P] *)
Definition nodes_agree (P : status -> Prop) (t : topo) : Prop :=
  forall k x k' x' n, sector_stored t k x -> sector_stored t k' x' -> on_node x n -> on_node x' n -> P (x_status x) -> P (x_status x').

(** C63: all sectors of a node with a proposed sector become proposed *)
Definition in_proposed_node (t : topo) (x : sector) : Prop := has_sector (fun st => st = PROPOSED) t (x_site x, k_node (x_key x)).
Definition node_settable (t : topo) : Prop := forall k x, sector_stored t k x -> in_proposed_node t x ->
  x_status x <> EXISTING /\ x_status x <> UNAVAILABLE /\ exists s, dget (t_sites t) (x_site x) = Some s /\ active_status (s_status s).
Definition nodes_completed (t t' : topo) : Prop :=
  t_sites t' = t_sites t /\ t_demands t' = t_demands t /\ t_links t' = t_links t /\ t_secidx t' = t_secidx t /\
  t_conn t' = t_conn t /\ t_rconn t' = t_rconn t /\ dkeys (t_sectors t') = dkeys (t_sectors t) /\
  forall k x, sector_stored t k x -> exists x', sector_stored t' k x' /\ x_key x' = x_key x /\
    (in_proposed_node t x -> x_status x' = PROPOSED) /\ (~ in_proposed_node t x -> x_status x' = x_status x).

(** C61: traffic the POPs can send.  A link carries traffic when it and its ends have a selected status; a wireless one
    also needs its sectors. *)
Definition carries (t : topo) (sf : list status) (p : string) (l : link) : bool :=
  beq (l_tx l) p && mem (l_status l) sf &&
  match dget (t_sites t) (l_tx l), dget (t_sites t) (l_rx l) with Some a, Some b => mem (s_status a) sf && mem (s_status b) sf | _, _ => false end &&
  (negb (l_wireless l) || match l_sectors l with Some _ => true | None => false end).
Definition sends_through (x : string) (l : link) : bool := l_wireless l && match l_sectors l with Some (a, _) => beq (key_id a) x | None => false end.
(** the links of POP [p] and how long each is used: a wired link at most all the time, the links of one sector together at most all the time *)
Definition schedule (t : topo) (sf : list status) (share : string -> Q) : Prop :=
  (forall k, 0 <= share k) /\
  (forall k l p, link_stored t k l -> carries t sf p l = true -> l_wireless l = false -> share k <= 1) /\
  (forall p x, total (fun q => share (fst q)) (filter (fun q => carries t sf p (snd q) && sends_through x (snd q)) (t_links t)) <= 1).
Definition pop_traffic (t : topo) (sf : list status) (capacity share : string -> Q) (p : string) : Q :=
  total (fun q => share (fst q) * capacity (fst q)) (filter (fun q => carries t sf p (snd q)) (t_links t)).
Definition all_pops (t : topo) (ps : list string) : Prop := NoDup ps /\ forall i, In i ps <-> exists s, dget (t_sites t) i = Some s /\ s_type s = POP.
Definition sent (t : topo) (sf : list status) (capacity share : string -> Q) (pop_capacity : Q) (ps : list string) : Q :=
  total (fun p => Qmin (pop_traffic t sf capacity share p) pop_capacity) ps.

(** C62: an active site of type [ty] at the location *)
Definition active_here (t : topo) (loc : Z * Z * Z) (ty : site_type) : Prop :=
  exists i s, dget (t_sites t) i = Some s /\ s_loc s = loc /\ s_type s = ty /\ active_status (s_status s).
(** a site cannot be selected next to the active sites of its location *)
Definition excluded (t : topo) (s : site) : Prop :=
  (active_here t (s_loc s) POP /\ ~ (s_type s = POP /\ active_status (s_status s))) \/
  (~ active_here t (s_loc s) POP /\ active_here t (s_loc s) DN /\ ~ (s_type s = DN /\ active_status (s_status s))) \/
  (~ active_here t (s_loc s) POP /\ ~ active_here t (s_loc s) DN /\ active_here t (s_loc s) CN /\ s_type s = CN /\ ~ active_status (s_status s)).
