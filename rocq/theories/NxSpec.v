(** What C40 means: graphs as sets of arcs, and being connected to the supersource. *)
From Coq Require Import ZArith.
From Verif Require Import Base Dict TopologyModel TopologySpec GraphSpec NxModel.
Local Open Scope list_scope.

Definition arc (g : graph) (u v : string) : Prop := exists r a, dget (g_adj g) u = Some r /\ dget r v = Some a.
Definition arc_type (g : graph) (u v : string) (ty : option etype) : Prop := exists r a, dget (g_adj g) u = Some r /\ dget r v = Some a /\ e_type a = ty.
Definition node (g : graph) (u : string) : Prop := exists ty, dget (g_nodes g) u = Some ty.
(** what networkx guarantees of every graph *)
Definition graph_ok (g : graph) : Prop :=
  dwf (g_nodes g) /\ dwf (g_adj g) /\ (forall u r, dget (g_adj g) u = Some r -> dwf r) /\
  (forall u, node g u <-> exists r, dget (g_adj g) u = Some r) /\ (forall u v, arc g u v -> node g v).
Definition no_loops (g : graph) : Prop := forall u, ~ arc g u u.
(** connected to the supersource by arcs of [E] *)
Inductive linked (E : string -> string -> Prop) : string -> Prop :=
| linked_source : linked E SUPERSOURCE
| linked_step u v : linked E u -> E u v -> linked E v.
Definition demand_node (g : graph) (d : string) : Prop := dget (g_nodes g) d = Some (Some NDemand).
Definition connected_demand (g : graph) (E : string -> string -> Prop) (d : string) : Prop := demand_node g d /\ linked E d.
(** the demand that is connected over the arcs of the graph and not over those of [E] *)
Definition lost (g : graph) (E : string -> string -> Prop) (d : string) : Prop := connected_demand g (arc g) d /\ ~ linked E d.
Definition without_pair (g : graph) (u v : string) (x y : string) : Prop := arc g x y /\ ~ (x = u /\ y = v) /\ ~ (x = v /\ y = u).
Definition without_site (g : graph) (i : string) (x y : string) : Prop := arc g x y /\ x <> i /\ y <> i.
(** a link whose failure is examined: neither wired, nor an access link, nor one of the added arcs *)
Definition examined (g : graph) (u v : string) : Prop :=
  exists ty, arc_type g u v ty /\ ty <> Some ESource /\ ty <> Some EDemand /\ ty <> Some (ELink WIRELESS_ACCESS) /\ ty <> Some (ELink ETHERNET).
Definition sorted_pair (k : string * string) (u v : string) : Prop := (k = (u, v) \/ k = (v, u)) /\ str_ltb (snd k) (fst k) = false.
(** [l] lists each element of [P] once *)
Definition lists_all (l : list string) (P : string -> Prop) : Prop := NoDup l /\ forall x, In x l <-> P x.
Definition source_ok (g : graph) : Prop := node g SUPERSOURCE /\ ~ demand_node g SUPERSOURCE.

(** *** the graph of a topology *)
Section Build.
Variables (t : topo) (f : list status).
Definition site_with (P : site -> Prop) (i : string) : Prop := exists s, dget (t_sites t) i = Some s /\ P s /\ In (s_status s) f.
Definition arc_of (u v : string) (ty : etype) : Prop :=
  (u = SUPERSOURCE /\ site_with (fun s => s_type s = POP) v /\ ty = ESource)
  \/ (exists k l, link_stored t k l /\ l_tx l = u /\ l_rx l = v /\ In (l_status l) f /\ site_with (fun _ => True) u /\ site_with (fun _ => True) v /\ ty = ELink (l_type l))
  \/ (exists d, dget (t_demands t) v = Some d /\ In u (d_sites d) /\ site_with (fun _ => True) u /\ ty = EDemand).
(** ids of sites and of demand sites do not clash; both come from hash functions *)
Definition ids_apart : Prop :=
  (forall k d, dget (t_demands t) k = Some d -> d_id d = k /\ ~ site_stored t k /\ k <> SUPERSOURCE) /\ ~ site_stored t SUPERSOURCE.
(** the site is joined to something other than demand; a site that is not has no type in the graph *)
Definition joined_up (x : string) : Prop := exists y e, (arc_of x y e \/ arc_of y x e) /\ e <> EDemand.
Definition site_label (x : string) (s : site) (n : option ntype) : Prop := (joined_up x /\ n = Some (NSite (s_type s))) \/ (~ joined_up x /\ n = None).
Definition node_label (x : string) (n : option ntype) : Prop :=
  (x = SUPERSOURCE /\ n = Some NSource) \/ (exists s, dget (t_sites t) x = Some s /\ site_label x s n) \/ (exists d, dget (t_demands t) x = Some d /\ n = Some NDemand).
(** an active wireless backhaul link from [u] to [v] *)
Definition carries (u v : string) : Prop := exists k l, link_stored t k l /\ l_tx l = u /\ l_rx l = v /\ l_type l = WIRELESS_BACKHAUL /\ In (l_status l) f /\ site_with (fun _ => True) u /\ site_with (fun _ => True) v.
(** demand site [d] is served: one of its sites is reached from an active POP over active links *)
Definition served (d : string) : Prop := exists D i n, dget (t_demands t) d = Some D /\ In i (d_sites D) /\ route t (Some f) i n.
(** demand site [d] is served, but not without site [i] *)
Definition off (i d : string) : Prop := served d /\ ~ linked (fun x y => (exists e, arc_of x y e) /\ x <> i /\ y <> i) d.
(** demand site [d] is served, but not without the links between [u] and [v] *)
Definition off_link (u v d : string) : Prop := served d /\ ~ linked (fun x y => (exists e, arc_of x y e) /\ ~ (x = u /\ y = v) /\ ~ (x = v /\ y = u)) d.
End Build.

(** *** paths *)
Fixpoint follows (E : string -> string -> Prop) (p : list string) : Prop :=
  match p with
  | u :: (v :: _) as r => E u v /\ follows E r
  | _ => True
  end.
Definition path_to (E : string -> string -> Prop) (d : string) (p : list string) : Prop :=
  exists q, p = SUPERSOURCE :: q ++ [d] /\ NoDup p /\ follows E p.
(** [paths] gives a path to everything that is connected *)
Definition paths_ok (g : graph) (paths : dict string (list string)) : Prop :=
  dwf paths /\ (forall d p, dget paths d = Some p -> (d = SUPERSOURCE /\ p = [SUPERSOURCE]) \/ path_to (arc g) d p) /\ (forall d, dget paths d = None -> ~ linked (arc g) d).
(** [(u, v)] is a step of [p] *)
Inductive step_of : list string -> string -> string -> Prop :=
| step_here u v r : step_of (u :: v :: r) u v
| step_later w r u v : step_of r u v -> step_of (w :: r) u v.

(** a hop of [p] that is not the first, comes before the demand and before the first CN *)
Definition before_cn (t : topo) (p : list string) (u v : string) : Prop :=
  exists m r, p = SUPERSOURCE :: m ++ r /\ r <> [] /\ step_of m u v /\ forall x s, In x m -> dget (t_sites t) x = Some s -> s_type s <> CN.
(** a hop of [p] that is neither the first nor the last *)
Definition inner_step (p : list string) (u v : string) : Prop := exists m d, p = SUPERSOURCE :: m ++ [d] /\ step_of m u v.
(** [paths] gives a path with the fewest hops *)
Definition fewest (g : graph) (paths : dict string (list string)) : Prop :=
  paths_ok g paths /\ forall d p p', dget paths d = Some p -> path_to (arc g) d p' -> List.length p <= List.length p'.
(** the arcs that remain when all of [L] are taken out *)
Definition without_all (g : graph) (L : list (string * string)) (x y : string) : Prop := arc g x y /\ ~ In (x, y) L.
(** the failure of the link between [u] and [v] cuts off some demand *)
Definition disruptive (g : graph) (u v : string) : Prop := exists d, lost g (without_pair g u v) d.
(** so is it, and the link is one whose failure is examined *)
Definition critical (g : graph) (u v : string) : Prop := disruptive g u v /\ (examined g u v \/ examined g v u).
(** with [L] out, the link between [u] and [v] is needed by some demand *)
Definition blocks (g : graph) (L : list (string * string)) (u v : string) : Prop :=
  exists d, connected_demand g (arc g) d /\ ~ linked (fun x y => without_all g L x y /\ ~ (x = u /\ y = v) /\ ~ (x = v /\ y = u)) d.
(** a hop before the first CN on the path of some demand site *)
Definition blanked (t : topo) (paths : dict string (list string)) (u v : string) : Prop :=
  exists d D p, dget (t_demands t) d = Some D /\ dget paths d = Some p /\ before_cn t p u v.
(** the link is on the path of some demand site *)
Definition on_path (t : topo) (paths : dict string (list string)) (k : string) : Prop :=
  exists d D p u v, dget (t_demands t) d = Some D /\ dget paths d = Some p /\ inner_step p u v /\ k = link_id_of u v.
(** the POP a path starts at *)
Definition second (p : list string) : option string := match p with _ :: x :: _ => Some x | _ => None end.
(** [P] holds of no more than [Q] *)
Definition no_more (P Q : string -> Prop) : Prop := forall a b, lists_all a P -> lists_all b Q -> List.length a <= List.length b.
(** the cost of a link by its MCS level; [None] is infinite *)
Definition cost_of (m : Z) (c : option Z) : Prop :=
  ((9 <= m)%Z /\ c = Some 1%Z) \/ ((4 <= m <= 8)%Z /\ c = Some 3%Z) \/ ((2 <= m <= 3)%Z /\ c = Some 15%Z) \/ ((m < 2)%Z /\ c = None).
