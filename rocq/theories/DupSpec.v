(** What C77 means: the topology after the chosen DNs got POPs of their own. *)
From Coq Require Import ZArith.
From Verif Require Import Base Dict TopologyModel TopologySpec.

Section Dup.
Variable pop_id : string -> string.

(** A DN for which the solution says 1. *)
Definition chosen (t : topo) (decisions : dict string Z) (d : string) (s : site) : Prop :=
  dget (t_sites t) d = Some s /\ s_type s = DN /\ dget decisions d = Some 1%Z.
(** The candidate POP at the place of a DN, and its sector for a sector of the DN. *)
Definition pop_for (s : site) : site := mkSite (pop_id (s_id s)) POP CANDIDATE (s_loc s) UNASSIGNED false.
Definition sector_for (d : string) (k : seckey) : seckey := mkSecKey (pop_id d) (k_node k) (k_pos k) false.
(** Links between a DN and a site that is no POP. *)
Definition not_pop (t : topo) (i : string) : Prop := exists s, dget (t_sites t) i = Some s /\ s_type s <> POP.
Definition out_link (t : topo) (d : string) (l : link) : Prop := (exists k, link_stored t k l) /\ l_tx l = d /\ not_pop t (l_rx l).
Definition in_link (t : topo) (d : string) (l : link) : Prop := (exists k, link_stored t k l) /\ l_rx l = d /\ not_pop t (l_tx l).
(** [l] is the candidate link of the POP that stands for the DN's link [l0]. *)
Definition copy_of_out (t : topo) (d : string) (l0 l : link) : Prop :=
  exists a b n, l_sectors l0 = Some (a, b) /\ dget (t_sites t) (l_rx l0) = Some n /\
    l = mkLink (pop_id d) (l_rx l0) (l_wireless l0) (beq (s_type n) CN) (Some (sector_for d a, b)) CANDIDATE.
Definition copy_of_in (d : string) (wireless : bool) (l0 l : link) : Prop :=
  exists a b, l_sectors l0 = Some (a, b) /\
    l = mkLink (l_tx l0) (pop_id d) wireless false (Some (a, sector_for d b)) CANDIDATE.

(** [t'] is [t] with a POP for each chosen DN; [wireless d] is the kind given to the copies of the links
    into [d]. *)
Record duplicated (t : topo) (decisions : dict string Z) (wireless : string -> bool) (t' : topo) : Prop := {
  dup_fresh : forall d s, chosen t decisions d s -> dget (t_sites t) (pop_id d) = None;
  dup_apart : forall d e sd se, chosen t decisions d sd -> chosen t decisions e se -> pop_id d = pop_id e -> d = e;
  dup_sites : forall i s, dget (t_sites t') i = Some s <->
    dget (t_sites t) i = Some s \/ exists d sd, chosen t decisions d sd /\ i = pop_id d /\ s = pop_for sd;
  dup_sectors : forall k x, sector_stored t' k x <->
    sector_stored t k x \/ exists d sd k0 y, chosen t decisions d sd /\ sector_stored t k0 y /\ x_site y = d /\
      x = mkSector (sector_for d (x_key y)) CANDIDATE /\ k = x_id x;
  dup_links : forall k l, link_stored t' k l <->
    link_stored t k l \/ (k = l_id l /\ exists d sd, chosen t decisions d sd /\
      ((exists l0, out_link t d l0 /\ copy_of_out t d l0 l) \/ exists l0, in_link t d l0 /\ copy_of_in d (wireless d) l0 l));
  dup_demand_ids : dkeys (t_demands t') = dkeys (t_demands t);
  dup_demands : forall k d d', dget (t_demands t) k = Some d -> dget (t_demands t') k = Some d' ->
    d_id d' = d_id d /\ (exists e, d_sites d' = d_sites d ++ e) /\ (NoDup (d_sites d) -> NoDup (d_sites d')) /\
    forall i, In i (d_sites d') <-> In i (d_sites d) \/ exists j sj, chosen t decisions j sj /\ In j (d_sites d) /\ i = pop_id j }.
(** The kind given to the copies of the links into [d] is the kind of some link out of a chosen DN. *)
Definition kind_taken (t : topo) (decisions : dict string Z) (wireless : string -> bool) : Prop :=
  forall d sd l0, chosen t decisions d sd -> in_link t d l0 -> l_sectors l0 <> None ->
    exists e se l1, chosen t decisions e se /\ out_link t e l1 /\ wireless d = l_wireless l1.

(** What the call needs in order to return. *)
Definition new_ids_free (t : topo) (decisions : dict string Z) : Prop :=
  (forall d s, chosen t decisions d s -> dget (t_sites t) (pop_id d) = None) /\
  (forall d e sd se, chosen t decisions d sd -> chosen t decisions e se -> pop_id d = pop_id e -> d = e).
(** A sector on a DN is a DN sector; a CN does not transmit; a link's sectors are in the topology. *)
Definition sectors_sound (t : topo) : Prop :=
  (forall k x s, sector_stored t k x -> dget (t_sites t) (x_site x) = Some s -> s_type s = DN -> k_cn (x_key x) = false) /\
  (forall k l s, link_stored t k l -> dget (t_sites t) (l_tx l) = Some s -> s_type s <> CN) /\
  (forall k l a b, link_stored t k l -> l_sectors l = Some (a, b) ->
     (exists x, sector_stored t (key_id a) x) /\ exists x, sector_stored t (key_id b) x).
Definition neighbours_usable (t : topo) (decisions : dict string Z) : Prop :=
  forall d sd k l n, chosen t decisions d sd -> link_stored t k l -> l_sectors l <> None ->
    ((l_tx l = d /\ dget (t_sites t) (l_rx l) = Some n) \/ (l_rx l = d /\ dget (t_sites t) (l_tx l) = Some n)) ->
    s_type n = POP \/ (s_status n <> UNAVAILABLE /\ s_status n <> UNREACHABLE).
Definition has_way_out (t : topo) (decisions : dict string Z) : Prop :=
  forall d sd l0, chosen t decisions d sd -> in_link t d l0 -> l_sectors l0 <> None -> exists l1, out_link t d l1.
End Dup.
