(** What C78 means: when a site-selection problem has an answer. *)
From Coq Require Import QArith.
From Verif Require Import Base Dict TopologyModel TopologySpec SetupModel IlpModel IlpSpec ExtractSpec.
Local Open Scope Q_scope.

(** An unavailable or unreachable site is ruled out, unless it is a POP and POPs are always active. *)
Definition barred (ps : params) (s : site) : Prop :=
  (s_status s = UNAVAILABLE \/ s_status s = UNREACHABLE) /\ ~ (p_always_active_pops ps = true /\ s_type s = POP).
(** A choice of sites: none barred, at most one per place, and at each place in use a site that may
    stand for the ones in use there. *)
Definition site_choice (ps : params) (t : topo) (sel : string -> Prop) : Prop :=
  (forall i s, sel i -> dget (t_sites t) i = Some s -> ~ barred ps s) /\
  (forall i j si sj, sel i -> sel j -> dget (t_sites t) i = Some si -> dget (t_sites t) j = Some sj -> s_loc si = s_loc sj -> i = j) /\
  (forall i s, dget (t_sites t) i = Some s -> in_use ps t i s ->
    exists j sj, dget (t_sites t) j = Some sj /\ s_loc sj = s_loc s /\ sel j /\
      (rank (s_type s) <= rank (s_type sj))%nat /\ (s_type sj = s_type s -> in_use ps t j sj) /\ (s_type s <> CN -> in_use ps t j sj)).
(** The POPs and DNs have two colours so that each active link between them, wireless or wired, joins both. *)
Definition active_link (l : link) : Prop := l_status l = PROPOSED \/ l_status l = EXISTING.
Definition polarisable (t : topo) : Prop :=
  exists odd : string -> bool, forall k l, link_stored t k l -> active_link l -> backhaul_site t (l_tx l) -> backhaul_site t (l_rx l) -> odd (l_tx l) <> odd (l_rx l).
(** What a choice costs: its sites that do not exist yet, with all their radio nodes. *)
Definition new_site (t : topo) (chosen : list string) (i : string) : Prop :=
  In i chosen /\ exists s, dget (t_sites t) i = Some s /\ s_status s <> EXISTING.
Definition new_node (t : topo) (chosen : list string) (n : string * nat) : Prop :=
  exists k x, sector_stored t k x /\ node_of x = n /\ new_site t chosen (x_site x).
Definition costs (ps : params) (at_ : attrs) (t : topo) (chosen : list string) (q : Q) : Prop :=
  exists sites nodes, lists sites (new_site t chosen) /\ lists nodes (new_node t chosen) /\
    q == total (site_price ps t) sites + total (fun n => a_node_capex at_ (fst n)) nodes.

(** The ends of an active link are active. *)
Definition active_links_sound (t : topo) : Prop :=
  forall k l i s, link_stored t k l -> active_link l -> touches l i -> dget (t_sites t) i = Some s -> s_status s = PROPOSED \/ s_status s = EXISTING.
(** Numbers that make sense. *)
Definition sane (ps : params) (at_ : attrs) (t : topo) : Prop :=
  0 <= p_pop_capacity ps /\ 0 < p_oversubscription ps /\ (forall k l, link_stored t k l -> 0 <= a_cap at_ (l_tx l, l_rx l)).
(** How many POPs a choice has. *)
Definition pop_count (t : topo) (chosen : list string) (n : nat) : Prop :=
  exists pops, lists pops (fun i => In i chosen /\ exists s, dget (t_sites t) i = Some s /\ s_type s = POP) /\ List.length pops = n.
(** A choice that can be kept to: of stored sites, and with polarities if they matter. *)
Definition valid_choice (ps : params) (t : topo) (chosen : list string) : Prop :=
  NoDup chosen /\ (forall i, In i chosen -> site_stored t i) /\ site_choice ps t (fun i => In i chosen) /\ (p_ignore_polarities ps = false -> polarisable t).
