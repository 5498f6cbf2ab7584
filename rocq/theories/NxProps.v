(** C40: failure analysis on the graph of the network. *)
From Coq Require Import ZArith.
From Verif Require Import Base Dict TopologyModel TopologySpec GraphSpec NxModel NxSpec NxBuildProofs NxDisruptProofs NxFinalProofs NxCostProofs NxExamples.
Local Open Scope list_scope.

Theorem C40_graph_exact : forall mcs t f, reachable t -> ids_apart t ->
  (forall u v ty, arc_type (build_digraph mcs t f) u v ty <-> exists e, ty = Some e /\ arc_of t f u v e)
  /\ (forall x n, dget (g_nodes (build_digraph mcs t f)) x = Some n <-> (exists y e, arc_of t f x y e \/ arc_of t f y x e) /\ node_label t f x n).
Proof. exact graph_exact. Qed.
Print Assumptions C40_graph_exact.

Theorem C40_graph_costs : forall mcs t f u v r a, reachable t -> dget (g_adj (build_digraph mcs t f)) u = Some r -> dget r v = Some a ->
  (u = SUPERSOURCE /\ site_stored t v /\ e_cost a = Some (Some 1%Z))
  \/ (exists k l c, link_stored t k l /\ l_tx l = u /\ l_rx l = v /\ e_cost a = Some c /\ cost_of (mcs k) c)
  \/ (exists d, dget (t_demands t) v = Some d /\ In u (d_sites d) /\ e_cost a = Some (Some 1%Z)).
Proof. exact graph_costs. Qed.
Print Assumptions C40_graph_costs.

Theorem C40_connected_demands : forall mcs t f, reachable t -> ids_apart t -> (exists i, site_with t f (fun s => s_type s = POP) i) ->
  exists l, find_connected_demands (build_digraph mcs t f) = Ok l /\ lists_all l (served t f).
Proof. exact connected_exact. Qed.
Print Assumptions C40_connected_demands.

Theorem C40_no_pop_raises : forall mcs t f, reachable t -> ids_apart t -> forall sp cp ty cand, (forall i, ~ site_with t f (fun s => s_type s = POP) i) ->
  let g := build_digraph mcs t f in
  find_connected_demands g = Err NetworkXExn /\ single_edge_failures g = Err NetworkXExn /\ single_site_failures g = Err NetworkXExn
  /\ disjoint_paths sp t g = Err NetworkXExn /\ get_topology_routing_results sp cp t g ty = Err NetworkXExn
  /\ (forall count, (0 < count)%Z -> find_most_disruptive_links g cand count = Err NetworkXExn).
Proof. exact no_pop. Qed.
Print Assumptions C40_no_pop_raises.

Theorem C40_link_failures : forall mcs t f, reachable t -> ids_apart t -> (exists i, site_with t f (fun s => s_type s = POP) i) ->
  (forall k l, link_stored t k l -> l_tx l <> l_rx l) ->
  exists D, single_edge_failures (build_digraph mcs t f) = Ok D
  /\ (forall k L, dget D k = Some L -> exists u v, carries t f u v /\ sorted_pair k u v)
  /\ (forall u v k, carries t f u v -> sorted_pair k u v -> exists L, dget D k = Some L /\ lists_all L (off_link t f u v)).
Proof. exact link_failures. Qed.
Print Assumptions C40_link_failures.

Theorem C40_site_failures : forall mcs t f, reachable t -> ids_apart t -> (exists i, site_with t f (fun s => s_type s = POP) i) ->
  exists P D, single_site_failures (build_digraph mcs t f) = Ok (P, D)
  /\ (forall i L, dget P i = Some L -> site_with t f (fun s => s_type s = POP) i /\ L <> [] /\ lists_all L (off t f i))
  /\ (forall i L, dget D i = Some L -> site_with t f (fun s => s_type s = DN) i /\ L <> [] /\ lists_all L (off t f i))
  /\ (forall i x, site_with t f (fun s => s_type s = POP) i -> off t f i x -> exists L, dget P i = Some L)
  /\ (forall i x, site_with t f (fun s => s_type s = DN) i -> off t f i x -> exists L, dget D i = Some L).
Proof. exact site_failures_complete. Qed.
Print Assumptions C40_site_failures.

(** [sp] is the shortest-path function of networkx: any paths will do *)
Theorem C40_disjoint_exact : forall mcs t f, reachable t -> ids_apart t -> (exists i, site_with t f (fun s => s_type s = POP) i) ->
  forall sp, let g := build_digraph mcs t f in paths_ok g (sp g) ->
  exists g' j, disjoint_paths sp t g = Ok (g', j) /\ graph_ok g'
  /\ (forall u v, arc g' u v <-> arc g u v) /\ g_nodes g' = g_nodes g
  /\ (forall u v ty, arc_type g' u v ty <-> (arc_type g u v ty /\ ~ blanked t (sp g) u v) \/ (ty = None /\ blanked t (sp g) u v))
  /\ lists_all (j_none j) (fun d => (exists D, dget (t_demands t) d = Some D) /\ ~ served t f d)
  /\ lists_all (j_pop j) (fun d => (exists D, dget (t_demands t) d = Some D) /\ exists p, dget (sp g) d = Some p /\ List.length p = 3)
  /\ lists_all (j_two j) (fun d => (exists D, dget (t_demands t) d = Some D) /\ exists p, dget (sp g) d = Some p /\ 3 < List.length p /\ linked (fun u v => arc g u v /\ ~ before_cn t p u v) d).
Proof. exact disjoint_exact. Qed.
Print Assumptions C40_disjoint_exact.

Theorem C40_disjoint_two_paths : forall mcs t f, reachable t -> ids_apart t -> (exists i, site_with t f (fun s => s_type s = POP) i) ->
  forall sp, let g := build_digraph mcs t f in paths_ok g (sp g) ->
  forall g' j d, disjoint_paths sp t g = Ok (g', j) -> In d (j_two j) ->
  exists p q, path_to (arc g) d p /\ path_to (arc g) d q /\ forall u v, step_of q u v -> ~ before_cn t p u v.
Proof. exact two_paths. Qed.
Print Assumptions C40_disjoint_two_paths.

Theorem C40_disjoint_finds_all_refuted : exists mcs t sp g' j d p q, reachable t /\ ids_apart t /\ fewest (build_digraph mcs t act) (sp (build_digraph mcs t act)) /\
  disjoint_paths sp t (build_digraph mcs t act) = Ok (g', j) /\ (exists D, dget (t_demands t) d = Some D) /\
  path_to (arc (build_digraph mcs t act)) d p /\ path_to (arc (build_digraph mcs t act)) d q /\ (forall u v, inner_step p u v -> ~ inner_step q u v) /\ ~ In d (j_two j) /\ ~ In d (j_pop j).
Proof. exact misses_disjoint. Qed.
Print Assumptions C40_disjoint_finds_all_refuted.

Theorem C40_pop_demand : forall mcs t f, reachable t -> ids_apart t -> forall sp, let g := build_digraph mcs t f in fewest g (sp g) ->
  forall d D, dget (t_demands t) d = Some D ->
  ((exists p, dget (sp g) d = Some p /\ List.length p = 3) <-> exists i, In i (d_sites D) /\ site_with t f (fun s => s_type s = POP) i).
Proof. exact pop_direct. Qed.
Print Assumptions C40_pop_demand.

(** the report examines the failures after the disjoint paths, in the graph they left *)
Theorem C40_failures_after_disjoint : forall mcs t f, reachable t -> ids_apart t -> (exists i, site_with t f (fun s => s_type s = POP) i) ->
  forall sp, let g := build_digraph mcs t f in paths_ok g (sp g) ->
  forall g' j, disjoint_paths sp t g = Ok (g', j) -> (forall k l, link_stored t k l -> l_tx l <> l_rx l) ->
  (exists D, single_edge_failures g' = Ok D
   /\ (forall k L, dget D k = Some L -> exists u v, (carries t f u v \/ blanked t (sp g) u v) /\ sorted_pair k u v /\ lists_all L (off_link t f u v))
   /\ (forall u v k, carries t f u v \/ blanked t (sp g) u v -> sorted_pair k u v -> exists L, dget D k = Some L /\ lists_all L (off_link t f u v)))
  /\ (exists P D, single_site_failures g' = Ok (P, D)
   /\ (forall i L, dget P i = Some L -> L <> [] /\ lists_all L (off t f i)) /\ (forall i L, dget D i = Some L -> L <> [] /\ lists_all L (off t f i))
   /\ (forall i x, site_with t f (fun s => s_type s = POP) i -> off t f i x -> exists L, dget P i = Some L) /\ (forall i x, site_with t f (fun s => s_type s = DN) i -> off t f i x -> exists L, dget D i = Some L)).
Proof. exact failures_after. Qed.
Print Assumptions C40_failures_after_disjoint.

Theorem C40_graph_restored_refuted : exists mcs t sp g' j k u v D D', reachable t /\ ids_apart t /\ (forall k l, link_stored t k l -> l_tx l <> l_rx l) /\ fewest (build_digraph mcs t act) (sp (build_digraph mcs t act)) /\
  disjoint_paths sp t (build_digraph mcs t act) = Ok (g', j) /\ arc_type (build_digraph mcs t act) u v (Some (ELink ETHERNET)) /\ arc_type g' u v None /\
  single_edge_failures (build_digraph mcs t act) = Ok D /\ single_edge_failures g' = Ok D' /\ dget D k = None /\ exists d, dget D' k = Some [d].
Proof. exact not_restored. Qed.
Print Assumptions C40_graph_restored_refuted.

Theorem C40_routing : forall mcs t f, reachable t -> ids_apart t -> (exists i, site_with t f (fun s => s_type s = POP) i) ->
  forall sp, let g := build_digraph mcs t f in fewest g (sp g) -> forall cp, (forall h, graph_ok h -> node h SUPERSOURCE -> paths_ok h (cp h)) ->
  forall ty, exists L paths, get_topology_routing_results sp cp t g ty = Ok L /\ lists_all L (on_path t paths) /\ (forall k, In k L -> exists l, link_stored t k l /\ In (l_status l) f)
  /\ (forall d D, dget (t_demands t) d = Some D -> (dget paths d = None <-> ~ served t f d) /\ forall p, dget paths d = Some p -> path_to (arc g) d p)
  /\ match ty with
     | SHORTEST_PATH => paths = sp g
     | MCS_COST_PATH => paths = cp g
     | DPA_PATH => forall d D p, dget (t_demands t) d = Some D -> dget paths d = Some p -> exists q pop, dget (sp g) d = Some q /\ second q = Some pop /\ second p = Some pop
     end.
Proof. exact routing_exact. Qed.
Print Assumptions C40_routing.

Theorem C40_disruptive_links : forall proposed cand, graph_ok proposed -> graph_ok cand -> no_loops proposed -> no_loops cand -> source_ok proposed -> source_ok cand ->
  forall count L, find_most_disruptive_links proposed cand count = Ok L ->
  NoDup L /\ (0 < count -> Z.of_nat (List.length L) <= count + 1)%Z /\ (count <= 0 -> L = [])%Z
  /\ (forall u v, In (u, v) L -> arc cand u v /\ critical proposed u v /\ (arc cand v u -> In (v, u) L))
  /\ (forall d, connected_demand cand (arc cand) d -> linked (without_all cand L) d)
  /\ ((0 < count)%Z -> forall u v k, examined proposed u v -> sorted_pair k u v -> disruptive proposed u v ->
      ~ arc_type proposed (fst k) (snd k) (Some (ELink WIRELESS_ACCESS)) -> In k L \/ blocks cand L u v \/
      ((count <= Z.of_nat (List.length L))%Z /\ forall x y, In (x, y) L -> no_more (lost proposed (without_pair proposed u v)) (lost proposed (without_pair proposed x y)))).
Proof. intros. eapply disruptive_links; eauto. Qed.
Print Assumptions C40_disruptive_links.

Theorem C40_disruptive_returns : forall proposed cand, graph_ok proposed -> graph_ok cand -> no_loops proposed -> no_loops cand -> source_ok proposed -> source_ok cand ->
  forall count, (forall u v, examined proposed u v -> (exists ty, arc_type proposed u v (Some ty)) /\ (exists ty, arc_type proposed v u (Some ty)) /\ arc cand u v /\ arc cand v u) ->
  exists L, find_most_disruptive_links proposed cand count = Ok L.
Proof. intros. eapply disruptive_total; eauto. Qed.
Print Assumptions C40_disruptive_returns.

Theorem C40_disruptive_at_most_count_refuted : exists mcs t count L, reachable t /\ ids_apart t /\
  find_most_disruptive_links (build_digraph mcs t act) (build_digraph mcs t wide) count = Ok L /\ (count < Z.of_nat (List.length L))%Z.
Proof. exact exceeds_count. Qed.
Print Assumptions C40_disruptive_at_most_count_refuted.

Theorem C40_disruptive_one_way_refuted : exists mcs t, reachable t /\ ids_apart t /\ (exists k l, link_stored t k l /\ active (l_status l) = true) /\
  find_most_disruptive_links (build_digraph mcs t act) (build_digraph mcs t wide) 1 = Err PyKeyError.
Proof. exact one_way_raises. Qed.
Print Assumptions C40_disruptive_one_way_refuted.
