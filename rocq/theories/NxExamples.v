(** Concrete cases for C40. *)
From Coq Require Import ZArith Lia.
From Verif Require Import Base Dict MonadLib SetupModel LosRangeModel TopologyModel TopologySpec TopologyLemmas TopologyProofs GraphSpec GraphProofs NxModel NxSpec NxProofs NxFailProofs NxBuildProofs NxPathProofs NxRouteProofs NxBfsProofs NxDisruptProofs NxFinalProofs.
Local Open Scope string_scope.
Local Open Scope list_scope.

Definition xs i ty (z : Z) := mkSite i ty PROPOSED (z, 0, 0)%Z UNASSIGNED false.
Definition xl a b st := AddLink (mkLink a b true false None st).
Definition xw a b := AddLink (mkLink a b false false None PROPOSED).
Definition xa a b := AddLink (mkLink a b true true None PROPOSED).
Definition act := [PROPOSED; EXISTING].
Definition wide := [PROPOSED; EXISTING; CANDIDATE].
Definition m0 (k : string) : Z := 9.
Ltac ops_ok := repeat (constructor; [first [exact I | unfold op_ok, no_dash, link_args_ok; simpl; intuition (discriminate || reflexivity)]|]); constructor.
Ltac apart := split; [intros k d E; apply dget_In in E; vm_compute in E; repeat (destruct E as [E|E]; [inversion E; subst; split; [reflexivity|split; [intros [s Hs]; vm_compute in Hs; discriminate|discriminate]]|]); destruct E|intros [s Hs]; vm_compute in Hs; discriminate].
Ltac not_self := let E := fresh "E" in intros k l E; apply dget_In in E; vm_compute in E; repeat (destruct E as [E|E]; [inversion E; subst; discriminate|]); destruct E.

(** a ring p, a, b with the CN c behind b; demand at the CN, at a and at the POP *)
Definition x_ops := [AddSite (xs "p" POP 1); AddSite (xs "a" DN 2); AddSite (xs "b" DN 3); AddSite (xs "c" CN 4);
  xl "p" "a" PROPOSED; xl "a" "p" PROPOSED; xl "a" "b" PROPOSED; xl "b" "a" PROPOSED; xl "p" "b" PROPOSED; xl "b" "p" PROPOSED; xa "b" "c";
  AddDemand (mkDemand "x" ["c"]); AddDemand (mkDemand "y" ["a"]); AddDemand (mkDemand "z" ["p"])].
Definition xt := run x_ops empty_topo.
Definition xg := build_digraph m0 xt act.
Example xt_reachable : reachable xt. Proof. exists x_ops. split; [|reflexivity]. unfold x_ops. ops_ok. Qed.
Example xt_apart : ids_apart xt. Proof. apart. Qed.
Example xt_no_self : forall k l, link_stored xt k l -> l_tx l <> l_rx l. Proof. not_self. Qed.
Example xt_pop : exists i, site_with xt act (fun s => s_type s = POP) i. Proof. exists "p", (xs "p" POP 1). split; [reflexivity|]. split; [reflexivity|]. now left. Qed.
Example x_connected : find_connected_demands xg = Ok ["x"; "y"; "z"]. Proof. vm_compute. reflexivity. Qed.
Example x_edges : single_edge_failures xg = Ok [(("a", "p"), []); (("b", "p"), []); (("a", "b"), [])]. Proof. vm_compute. reflexivity. Qed.
Example x_sites : single_site_failures xg = Ok ([("p", ["x"; "y"; "z"])], [("a", ["y"]); ("b", ["x"])]). Proof. vm_compute. reflexivity. Qed.
Lemma bfs_of mcs t f : reachable t -> ids_apart t -> (exists i, site_with t f (fun s => s_type s = POP) i) -> fewest (build_digraph mcs t f) (bfs (build_digraph mcs t f)).
Proof. intros H1 H2 H3. apply bfs_fewest; [exact (build_graph_ok mcs t f H1 H2)|]. exact (proj1 (source_in mcs t f H1 H2 H3)). Qed.
Example x_sp : fewest xg (bfs xg). Proof. exact (bfs_of m0 xt act xt_reachable xt_apart xt_pop). Qed.
Example x_cp : forall h, graph_ok h -> node h SUPERSOURCE -> paths_ok h (bfs h). Proof. intros h H1 H2. exact (proj1 (bfs_fewest h H1 H2)). Qed.
Example x_disjoint : exists g', disjoint_paths bfs xt xg = Ok (g', mkDisjoint ["x"; "y"] [] ["z"]). Proof. eexists. vm_compute. reflexivity. Qed.
Example x_routing : get_topology_routing_results bfs bfs xt xg DPA_PATH = Ok ["p-b"; "b-c"; "p-a"]. Proof. vm_compute. reflexivity. Qed.
Example x_served : served xt act "x".
Proof. apply (connected_served m0 xt act xt_reachable xt_apart). destruct (connected_exact m0 xt act xt_reachable xt_apart xt_pop) as (l & E & _ & H). apply (connected_served m0 xt act xt_reachable xt_apart), H. change (find_connected_demands xg = Ok l) in E. rewrite x_connected in E. injection E as <-. now left. Qed.
Example x_off : off xt act "b" "x".
Proof.
  destruct (site_failures_complete m0 xt act xt_reachable xt_apart xt_pop) as (P & D & E & _ & H & _). change (single_site_failures xg = Ok (P, D)) in E. rewrite x_sites in E. injection E as <- <-. destruct (H "b" ["x"] eq_refl) as (_ & _ & _ & X). apply X. now left.
Qed.
Example x_carries : carries xt act "p" "a".
Proof. exists "p-a". eexists. split; [vm_compute; reflexivity|]. split; [reflexivity|]. split; [reflexivity|]. split; [reflexivity|]. split; [now left|]. split; eexists; (split; [vm_compute; reflexivity|]); (split; [exact I|]); now left. Qed.

(** p1 serves a; p2 could *)
Definition d_ops := [AddSite (xs "p" POP 1); AddSite (xs "q" POP 2); AddSite (xs "a" DN 3); xl "p" "a" PROPOSED; xl "a" "p" PROPOSED; xl "q" "a" CANDIDATE; xl "a" "q" CANDIDATE; AddDemand (mkDemand "d" ["a"])].
Definition dt := run d_ops empty_topo.
Example dt_reachable : reachable dt. Proof. exists d_ops. split; [|reflexivity]. unfold d_ops. ops_ok. Qed.
Example dt_apart : ids_apart dt. Proof. apart. Qed.
Example dt_no_self : forall k l, link_stored dt k l -> l_tx l <> l_rx l. Proof. not_self. Qed.
Example dt_pop f : In PROPOSED f -> exists i, site_with dt f (fun s => s_type s = POP) i. Proof. intros H. exists "p", (xs "p" POP 1). split; [reflexivity|]. split; [reflexivity|exact H]. Qed.
Example d_disruptive : find_most_disruptive_links (build_digraph m0 dt act) (build_digraph m0 dt wide) 1 = Ok [("a", "p"); ("p", "a")]. Proof. vm_compute. reflexivity. Qed.
Example d_graphs f : In PROPOSED f -> graph_ok (build_digraph m0 dt f) /\ no_loops (build_digraph m0 dt f) /\ source_ok (build_digraph m0 dt f).
Proof. intros H. split; [exact (build_graph_ok m0 dt f dt_reachable dt_apart)|]. split; [exact (no_self m0 dt f dt_reachable dt_apart dt_no_self)|exact (source_in m0 dt f dt_reachable dt_apart (dt_pop f H))]. Qed.
Lemma exceeds_count : exists mcs t count L, reachable t /\ ids_apart t /\ find_most_disruptive_links (build_digraph mcs t act) (build_digraph mcs t wide) count = Ok L /\ (count < Z.of_nat (List.length L))%Z.
Proof. exists m0, dt, 1%Z, [("a", "p"); ("p", "a")]. split; [exact dt_reachable|]. split; [exact dt_apart|]. split; [exact d_disruptive|]. reflexivity. Qed.

(** one direction only *)
Definition o_ops := [AddSite (xs "z" POP 1); AddSite (xs "b" DN 2); xl "z" "b" PROPOSED; AddDemand (mkDemand "d" ["b"])].
Lemma one_way_raises : exists mcs t, reachable t /\ ids_apart t /\ (exists k l, link_stored t k l /\ active (l_status l) = true) /\
  find_most_disruptive_links (build_digraph mcs t act) (build_digraph mcs t wide) 1 = Err PyKeyError.
Proof.
  exists m0, (run o_ops empty_topo). split; [exists o_ops; split; [unfold o_ops; ops_ok|reflexivity]|]. split; [apart|]. split; [exists "z-b"; eexists; split; [vm_compute; reflexivity|reflexivity]|]. vm_compute. reflexivity.
Qed.

(** the shortest path takes the middle of both others *)
Definition w_ops := [AddSite (xs "p" POP 1); AddSite (xs "a" DN 2); AddSite (xs "b" DN 3); AddSite (xs "c" DN 4); AddSite (xs "d" DN 5); AddSite (xs "e" DN 6); AddSite (xs "f" DN 7); AddSite (xs "t" DN 8);
  xl "p" "a" PROPOSED; xl "a" "b" PROPOSED; xl "b" "t" PROPOSED; xl "p" "c" PROPOSED; xl "c" "d" PROPOSED; xl "d" "b" PROPOSED; xl "a" "e" PROPOSED; xl "e" "f" PROPOSED; xl "f" "t" PROPOSED; AddDemand (mkDemand "x" ["t"])].
Definition wt := run w_ops empty_topo.
Example wt_reachable : reachable wt. Proof. exists w_ops. split; [|reflexivity]. unfold w_ops. ops_ok. Qed.
Example wt_apart : ids_apart wt. Proof. apart. Qed.
Example wt_pop : exists i, site_with wt act (fun s => s_type s = POP) i. Proof. exists "p", (xs "p" POP 1). split; [reflexivity|]. split; [reflexivity|]. now left. Qed.
Lemma misses_disjoint : exists mcs t sp g' j d p q, reachable t /\ ids_apart t /\ fewest (build_digraph mcs t act) (sp (build_digraph mcs t act)) /\
  disjoint_paths sp t (build_digraph mcs t act) = Ok (g', j) /\ (exists D, dget (t_demands t) d = Some D) /\
  path_to (arc (build_digraph mcs t act)) d p /\ path_to (arc (build_digraph mcs t act)) d q /\ (forall u v, inner_step p u v -> ~ inner_step q u v) /\ ~ In d (j_two j) /\ ~ In d (j_pop j).
Proof.
  exists m0, wt, bfs. set (g := build_digraph m0 wt act). destruct (disjoint_paths bfs wt g) as [[g' j]|e] eqn:E; [|vm_compute in E; discriminate].
  exists g', j, "x", [SUPERSOURCE; "p"; "c"; "d"; "b"; "t"; "x"], [SUPERSOURCE; "p"; "a"; "e"; "f"; "t"; "x"].
  assert (J : j = mkDisjoint [] [] []). { enough (X : match disjoint_paths bfs wt g with Ok (_, j) => j | Err _ => mkDisjoint ["x"] [] [] end = mkDisjoint [] [] []) by (rewrite E in X; exact X). vm_compute. reflexivity. }
  split; [exact wt_reachable|]. split; [exact wt_apart|]. split; [exact (bfs_of m0 wt act wt_reachable wt_apart wt_pop)|]. split; [reflexivity|]. split; [eexists; vm_compute; reflexivity|].
  assert (A : forall u v, (match dget (g_adj g) u with Some r => dmem r v | None => false end = true) -> arc g u v).
  { intros u v H. unfold arc. destruct (dget (g_adj g) u) as [r|]; [|discriminate]. apply dmem_Some in H. destruct H as [a H]. eauto. }
  split; [exists ["p"; "c"; "d"; "b"; "t"]|split; [exists ["p"; "a"; "e"; "f"; "t"]|split]].
  - split; [reflexivity|]. split; [repeat constructor; cbn; intuition discriminate|]. cbn [follows app]. repeat match goal with |- _ /\ _ => split end; try exact I; apply A; vm_compute; reflexivity.
  - split; [reflexivity|]. split; [repeat constructor; cbn; intuition discriminate|]. cbn [follows app]. repeat match goal with |- _ /\ _ => split end; try exact I; apply A; vm_compute; reflexivity.
  - intros u v H1 H2. change ([SUPERSOURCE; "p"; "c"; "d"; "b"; "t"; "x"]) with (SUPERSOURCE :: ["p"; "c"; "d"; "b"; "t"] ++ ["x"]) in H1. change ([SUPERSOURCE; "p"; "a"; "e"; "f"; "t"; "x"]) with (SUPERSOURCE :: ["p"; "a"; "e"; "f"; "t"] ++ ["x"]) in H2.
    destruct H1 as (m & d & E1 & H1), H2 as (m' & d' & E2 & H2). injection E1 as E1. injection E2 as E2. change (["p"; "c"; "d"; "b"; "t"; "x"]) with (["p"; "c"; "d"; "b"; "t"] ++ ["x"]) in E1. change (["p"; "a"; "e"; "f"; "t"; "x"]) with (["p"; "a"; "e"; "f"; "t"] ++ ["x"]) in E2. apply app_inj_tail in E1, E2. destruct E1 as [<- _], E2 as [<- _].
    repeat match goal with H : step_of _ _ _ |- _ => inversion H; clear H; subst end; congruence.
  - rewrite J. cbn. tauto.
Qed.

(** a wired link *)
Definition v_ops := [AddSite (xs "p" POP 1); AddSite (xs "q" DN 2); xw "p" "q"; AddDemand (mkDemand "d" ["q"])].
Definition vt := run v_ops empty_topo.
Definition vg := build_digraph m0 vt act.
Example vt_reachable : reachable vt. Proof. exists v_ops. split; [|reflexivity]. unfold v_ops. ops_ok. Qed.
Example vt_apart : ids_apart vt. Proof. apart. Qed.
Example vt_pop : exists i, site_with vt act (fun s => s_type s = POP) i. Proof. exists "p", (xs "p" POP 1). split; [reflexivity|]. split; [reflexivity|]. now left. Qed.
Lemma not_restored : exists mcs t sp g' j k u v D D', reachable t /\ ids_apart t /\ (forall k l, link_stored t k l -> l_tx l <> l_rx l) /\ fewest (build_digraph mcs t act) (sp (build_digraph mcs t act)) /\
  disjoint_paths sp t (build_digraph mcs t act) = Ok (g', j) /\ arc_type (build_digraph mcs t act) u v (Some (ELink ETHERNET)) /\ arc_type g' u v None /\
  single_edge_failures (build_digraph mcs t act) = Ok D /\ single_edge_failures g' = Ok D' /\ dget D k = None /\ exists d, dget D' k = Some [d].
Proof.
  exists m0, vt, bfs. change (build_digraph m0 vt act) with vg. destruct (disjoint_paths bfs vt vg) as [[g' j]|e] eqn:E; [|vm_compute in E; discriminate]. exists g', j, ("p", "q"), "p", "q", [], [(("p", "q"), ["d"])].
  split; [exact vt_reachable|]. split; [exact vt_apart|]. split; [not_self|]. split; [exact (bfs_of m0 vt act vt_reachable vt_apart vt_pop)|]. split; [reflexivity|].
  split; [do 2 eexists; split; [vm_compute; reflexivity|split; vm_compute; reflexivity]|].
  assert (G : g' = match disjoint_paths bfs vt vg with Ok (h, _) => h | Err _ => vg end) by now rewrite E. vm_compute in G. subst g'.
  split; [do 2 eexists; split; [vm_compute; reflexivity|split; vm_compute; reflexivity]|]. split; [vm_compute; reflexivity|]. split; [vm_compute; reflexivity|]. split; [reflexivity|]. exists "d". reflexivity.
Qed.
Example empty_no_pop : forall i, ~ site_with (run [AddSite (xs "a" DN 1)] empty_topo) act (fun s => s_type s = POP) i.
Proof. intros i (s & E & H & _). apply dget_In in E. cbn in E. destruct E as [E|[]]. injection E as <- <-. discriminate. Qed.
