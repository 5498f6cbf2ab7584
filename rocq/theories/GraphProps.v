(** Property theorems C08, C09 (reachability from the POPs); vocabulary in GraphSpec.v. *)
From Verif Require Import Base Dict TopologyModel TopologySpec StatusModel GraphModel GraphSpec GraphProofs.
Local Open Scope string_scope.
Local Open Scope list_scope.

(** Example: POP a -> DN b -> CN c -> DN b (a cycle), DN e isolated except for a link to f,
    CN f, demand at c and at f. *)
Definition g_site i ty st := mkSite i ty st (0, 0, 0)%Z UNASSIGNED false.
Definition g_link a b st := mkLink a b true false None st.
Definition g_ops := [AddSite (g_site "e" DN CANDIDATE); AddSite (g_site "a" POP EXISTING); AddSite (g_site "b" DN CANDIDATE);
  AddSite (g_site "c" DN CANDIDATE); AddSite (g_site "f" CN CANDIDATE);
  AddLink (g_link "a" "b" CANDIDATE); AddLink (g_link "b" "c" CANDIDATE);
  AddLink (g_link "c" "b" CANDIDATE); AddLink (g_link "e" "f" CANDIDATE); AddDemand (mkDemand "d1" ["c"]); AddDemand (mkDemand "d2" ["f"])].
Definition gt := run g_ops empty_topo.
Example g_ops_ok : Forall op_ok g_ops /\ all_returned g_ops empty_topo.
Proof.
  split; [|vm_compute; repeat split].
  unfold g_ops. repeat (constructor; [first [exact I | unfold op_ok, no_dash; simpl; intuition discriminate]|]). constructor.
Qed.
Example gt_reachable : reachable gt.
Proof. exists g_ops. split; [apply g_ops_ok|reflexivity]. Qed.

(** C01 makes the hypothesis of all theorems below hold of every topology built by API calls. *)
Theorem C08_every_built_topology_is_well_formed : forall t, reachable t -> well_formed t.
Proof. exact wf_reachable. Qed.
Print Assumptions C08_every_built_topology_is_well_formed.

(** C08.  [Ok] says in particular that the loop ends and no lookup fails. *)
Theorem C08_hops_are_shortest_distances : forall t sf, well_formed t ->
  exists h, hops_from_pops t sf = Ok h /\
    (forall i n, dget h i = Some n <-> shortest t sf i n) /\
    (forall i, dget h i = None <-> forall n, ~ route t sf i n).
Proof. exact hops_exact_none. Qed.
Print Assumptions C08_hops_are_shortest_distances.
Example C08_example : well_formed gt /\ hops_from_pops gt usable = Ok [("a", 0); ("b", 1); ("c", 2)].
Proof. split; [apply wf_reachable, gt_reachable|vm_compute; reflexivity]. Qed.

Theorem C08_reachable_demand_exact : forall t sf, well_formed t ->
  exists r, get_reachable_demand_sites t sf = Ok r /\
    forall x, In x r <-> exists k e i n, dget (t_demands t) k = Some e /\ d_id e = x /\ In i (d_sites e) /\ route t sf i n.
Proof. exact reachable_demand_exact. Qed.
Print Assumptions C08_reachable_demand_exact.
Example C08_demand_example : get_reachable_demand_sites gt usable = Ok ["d1"].
Proof. vm_compute. reflexivity. Qed.

(** C09.  A normal return marks exactly what it should; and it returns normally exactly
    when no immutable status is in the way.  Missing from the full property: the call does
    fail half way otherwise, see the refutation. *)
Theorem C09_marks_exactly_partial : forall mh t, well_formed t ->
  forall t', mark_unreachable_components mh t = (Ok tt, t') -> marked_exactly mh t t'.
Proof. exact mark_exact. Qed.
Print Assumptions C09_marks_exactly_partial.

Theorem C09_returns_iff_markable : forall mh t, well_formed t ->
  (fst (mark_unreachable_components mh t) = Ok tt <-> markable mh t) /\
  (fst (mark_unreachable_components mh t) = Err TopologyExn <-> ~ markable mh t).
Proof. exact mark_returns_iff. Qed.
Print Assumptions C09_returns_iff_markable.
Example C09_example : exists t', mark_unreachable_components None gt = (Ok tt, t') /\
  map (site_status_of t') ["a"; "b"; "c"; "e"; "f"] =
    [Some EXISTING; Some CANDIDATE; Some CANDIDATE; Some UNREACHABLE; Some UNREACHABLE] /\
  link_status_of t' "e-f" = Some UNREACHABLE /\ link_status_of t' "c-b" = Some CANDIDATE.
Proof. exists (snd (mark_unreachable_components None gt)). vm_compute. auto. Qed.

(** The call can fail half way: e is marked, then f's UNAVAILABLE link raises.  All
    statuses of the topology are ones the setters and constructors accept. *)
Definition statuses_legal (t : topo) : Prop :=
  forall k l sa sb, link_stored t k l -> dget (t_sites t) (l_tx l) = Some sa -> dget (t_sites t) (l_rx l) = Some sb ->
    link_compat (s_status sa) (s_status sb) (l_status l) = true.
Definition h_ops := [AddSite (g_site "e" DN CANDIDATE); AddSite (g_site "a" POP EXISTING);
  AddSite (g_site "f" CN CANDIDATE); AddLink (g_link "a" "f" UNAVAILABLE)].
Theorem C09_fails_half_way_refuted : exists t, reachable t /\ statuses_legal t /\
  fst (mark_unreachable_components None t) = Err TopologyExn /\
  exists i, site_status_of t i = Some CANDIDATE /\ site_status_of (snd (mark_unreachable_components None t)) i = Some UNREACHABLE.
Proof.
  exists (run h_ops empty_topo). split; [|split; [|split]].
  - exists h_ops. split; [|reflexivity]. unfold h_ops.
    repeat (constructor; [first [exact I | unfold op_ok, no_dash; simpl; intuition discriminate]|]). constructor.
  - intros k l sa sb E. apply dget_In in E. vm_compute in E. destruct E as [E|[]]. inversion E; subst. simpl.
    intros Ea Eb. inversion Ea; inversion Eb; subst. reflexivity.
  - vm_compute. reflexivity.
  - exists "e". vm_compute. auto.
Qed.
Print Assumptions C09_fails_half_way_refuted.

(** A limit of 0 hops is treated as no limit: a site one hop away from its POP stays. *)
Theorem C09_zero_hop_limit_refuted : exists t t' i, reachable t /\
  mark_unreachable_components (Some 0) t = (Ok tt, t') /\
  shortest t usable i 1 /\ site_status_of t i = Some CANDIDATE /\ site_status_of t' i = Some CANDIDATE.
Proof.
  exists gt, (snd (mark_unreachable_components (Some 0) gt)), "b". split; [exact gt_reachable|]. split; [vm_compute; reflexivity|]. split; [|vm_compute; auto].
  destruct (hops_exact gt usable (wf_reachable gt gt_reachable)) as (h & E & Hh). apply Hh.
  vm_compute in E. inversion E. reflexivity.
Qed.
Print Assumptions C09_zero_hop_limit_refuted.
