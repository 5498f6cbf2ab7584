(** Property theorems C01-C05, C43-C45 (topology store).  Statements only; see
    TopologySpec.v for their vocabulary. *)
From Coq Require Import Permutation Sorted.
From Verif Require Import Base Dict TopologyModel TopologySpec TopologyProofs TopologyLemmas TopologyQueryProofs.
Local Open Scope string_scope.
Local Open Scope list_scope.

(** A small topology used by the examples: POP a, DN b, CN c, one sector on a and b,
    links a->b, b->a and b->c. *)
Definition sa := mkSite "a" POP CANDIDATE (0, 0, 0)%Z UNASSIGNED false.
Definition sb := mkSite "b" DN CANDIDATE (1, 0, 0)%Z UNASSIGNED false.
Definition sc := mkSite "c" CN CANDIDATE (2, 0, 0)%Z UNASSIGNED false.
Definition ka := mkSecKey "a" 0 0 false.
Definition kb := mkSecKey "b" 0 0 false.
Definition lab := mkLink "a" "b" true false (Some (ka, kb)) CANDIDATE.
Definition lba := mkLink "b" "a" true false (Some (kb, ka)) CANDIDATE.
Definition lbc := mkLink "b" "c" true true None CANDIDATE.
Definition dem := mkDemand "d" ["b"; "a"].
Definition ops0 := [AddSite sa; AddSite sb; AddSite sc; AddSector (mkSector ka CANDIDATE);
  AddSector (mkSector kb CANDIDATE); AddLink lab; AddLink lba; AddLink lbc; AddDemand dem].
Definition t0 := run ops0 empty_topo.
Example ops0_ok : Forall op_ok ops0 /\ all_returned ops0 empty_topo.
Proof.
  split; [|vm_compute; repeat split].
  unfold ops0. repeat (constructor; [first [exact I | split; reflexivity | unfold op_ok, no_dash; simpl; intuition discriminate]|]).
  constructor.
Qed.
Example t0_reachable : reachable t0.
Proof. exists ops0. split; [apply ops0_ok|reflexivity]. Qed.
Example t0_content : map fst (t_links t0) = ["a-b"; "b-a"; "b-c"] /\ map fst (t_sectors t0) = ["a-0-0-DN"; "b-0-0-DN"].
Proof. vm_compute. auto. Qed.

(** C01.  Missing from the full property: the sector index may list sectors that are no
    longer stored, see the refutation below. *)
Theorem C01_topology_indexes_agree_partial : forall ops, Forall op_ok ops ->
  link_indexes_agree (run ops empty_topo) /\ tables_closed (run ops empty_topo) /\
  sector_index_complete (run ops empty_topo).
Proof. exact agree_run. Qed.
Print Assumptions C01_topology_indexes_agree_partial.

Theorem C01_sector_index_sound_unless_site_with_sectors_removed : forall ops, Forall op_ok ops ->
  (forall pre i post, ops = pre ++ RemoveSite i :: post -> ~ has_sectors (run pre empty_topo) i) ->
  sector_index_sound (run ops empty_topo).
Proof. exact idx_sound_run. Qed.
Print Assumptions C01_sector_index_sound_unless_site_with_sectors_removed.
Example C01_sound_example : forall pre i post, ops0 = pre ++ RemoveSite i :: post -> ~ has_sectors (run pre empty_topo) i.
Proof.
  intros pre i post E. exfalso.
  assert (H : In (RemoveSite i) ops0) by (rewrite E; apply in_or_app; right; now left).
  unfold ops0 in H. simpl in H. intuition discriminate.
Qed.

Theorem C01_sector_index_refuted : exists ops, Forall op_ok ops /\ all_returned ops empty_topo /\
  ~ sector_index_sound (run ops empty_topo).
Proof.
  exists (ops0 ++ [RemoveSite "b"]). split; [|split].
  - apply Forall_app. split; [apply ops0_ok|]. repeat constructor.
  - vm_compute. repeat split.
  - intros Hs. destruct (Hs "b" "b-0-0-DN") as (x & Ex & _).
    + exists ["b-0-0-DN"]. vm_compute. auto.
    + vm_compute in Ex. discriminate.
Qed.
Print Assumptions C01_sector_index_refuted.

(** C02.  Missing: the site's membership in demand sites, see the refutation. *)
Theorem C02_remove_site_exact_partial : forall t i t', reachable t -> remove_site i t = (Ok tt, t') ->
  (forall j s, dget (t_sites t') j = Some s <-> dget (t_sites t) j = Some s /\ j <> i) /\
  (forall k l, link_stored t' k l <-> link_stored t k l /\ ~ touches l i) /\
  (forall k x, sector_stored t' k x <-> sector_stored t k x /\ x_site x <> i) /\
  t_demands t' = t_demands t /\
  (forall k l j x, link_stored t' k l -> sector_stored t j x -> x_site x = i -> ~ link_uses j l).
Proof. exact remove_site_exact. Qed.
Print Assumptions C02_remove_site_exact_partial.

Theorem C02_remove_site_succeeds_iff : forall t i, reachable t ->
  (fst (remove_site i t) = Ok tt <->
   site_stored t i /\ (forall k, listed_in (t_secidx t) i k -> exists x, sector_stored t k x) /\
   ~ (exists k l, link_stored t k l /\ l_tx l = i /\ l_rx l = i)).
Proof. exact remove_site_succeeds. Qed.
Print Assumptions C02_remove_site_succeeds_iff.
Example C02_example : fst (remove_site "b" t0) = Ok tt /\ map fst (t_links (snd (remove_site "b" t0))) = [].
Proof. vm_compute. auto. Qed.

Theorem C02_demand_membership_refuted : exists t i t' d, reachable t /\ remove_site i t = (Ok tt, t') /\
  dget (t_demands t') "d" = Some d /\ In i (d_sites d) /\ ~ site_stored t' i.
Proof.
  exists t0, "b". eexists. eexists. split; [exact t0_reachable|]. split; [vm_compute; reflexivity|].
  split; [vm_compute; reflexivity|]. split; [simpl; auto|]. intros [s E]. vm_compute in E. discriminate.
Qed.
Print Assumptions C02_demand_membership_refuted.
(** A link from a site to itself makes the site impossible to remove. *)
Theorem C02_self_link_refuted : exists ops i, Forall op_ok ops /\ all_returned ops empty_topo /\
  site_stored (run ops empty_topo) i /\ fst (remove_site i (run ops empty_topo)) = Err PlannerExn.
Proof.
  exists [AddSite sb; AddLink (mkLink "b" "b" true false None CANDIDATE)], "b".
  split; [|vm_compute; repeat split; eauto].
  constructor; [unfold op_ok, no_dash; simpl; intuition discriminate|]. repeat constructor.
Qed.
Print Assumptions C02_self_link_refuted.

(** C03. *)
Theorem C03_remove_readd_remove_partial : forall t i t1 s t2,
  reachable t -> no_dash i -> s_id s = i ->
  remove_site i t = (Ok tt, t1) -> add_site s t1 = (Ok tt, t2) ->
  (has_sectors t i -> fst (remove_site i t2) = Err PyKeyError) /\
  (~ has_sectors t i -> fst (remove_site i t2) = Ok tt).
Proof. exact readd_remove. Qed.
Print Assumptions C03_remove_readd_remove_partial.
Theorem C03_remove_readd_remove_refuted : exists ops i s, Forall op_ok ops /\ s_id s = i /\
  all_returned (ops ++ [RemoveSite i; AddSite s]) empty_topo /\
  fst (remove_site i (run (ops ++ [RemoveSite i; AddSite s]) empty_topo)) = Err PyKeyError.
Proof. exists ops0, "b", sb. split; [apply ops0_ok|]. vm_compute. repeat split. Qed.
Print Assumptions C03_remove_readd_remove_refuted.
Example C03_example_without_sectors :
  exists t1 t2, remove_site "c" t0 = (Ok tt, t1) /\ add_site sc t1 = (Ok tt, t2) /\ fst (remove_site "c" t2) = Ok tt.
Proof. eexists. eexists. vm_compute. repeat split. Qed.

(** C04. *)
Theorem C04_link_ids_identify_ends : forall a b c d, no_dash a -> no_dash c ->
  (link_id_of a b = link_id_of c d <-> a = c /\ b = d).
Proof. intros a b c d Ha Hc. split; [now apply link_id_inj|intros [-> ->]; reflexivity]. Qed.
Print Assumptions C04_link_ids_identify_ends.
Theorem C04_stored_links_identified_by_ends : forall t k1 l1 k2 l2,
  reachable t -> link_stored t k1 l1 -> link_stored t k2 l2 ->
  (l_id l1 = l_id l2 <-> l_tx l1 = l_tx l2 /\ l_rx l1 = l_rx l2) /\ (l_id l1 = l_id l2 -> l1 = l2).
Proof. exact link_identity. Qed.
Print Assumptions C04_stored_links_identified_by_ends.
Theorem C04_get_link_by_site_ids_exact : forall t a b, reachable t ->
  (site_stored t a /\ site_stored t b ->
   exists o, get_link_by_site_ids t a b = Ok o /\
     forall l, o = Some l <-> exists k, link_stored t k l /\ l_tx l = a /\ l_rx l = b) /\
  (~ (site_stored t a /\ site_stored t b) -> get_link_by_site_ids t a b = Err TopologyExn).
Proof. exact get_link_exact. Qed.
Print Assumptions C04_get_link_by_site_ids_exact.
Theorem C04_get_reverse_link_exact : forall t l k, reachable t -> link_stored t k l ->
  exists o, get_reverse_link t l = Ok o /\
    forall l', o = Some l' <-> exists k', link_stored t k' l' /\ l_tx l' = l_rx l /\ l_rx l' = l_tx l.
Proof. exact get_reverse_exact. Qed.
Print Assumptions C04_get_reverse_link_exact.
Example C04_example : get_link_by_site_ids t0 "a" "b" = Ok (Some lab) /\ get_reverse_link t0 lab = Ok (Some lba) /\
  get_link_by_site_ids t0 "a" "c" = Ok None.
Proof. vm_compute. auto. Qed.
(** [get_link_by_sector_ids] ignores which sectors the link really uses. *)
Theorem C04_get_link_by_sector_ids_refuted : exists t a b l, reachable t /\
  get_link_by_sector_ids t a b = Ok (Some l) /\ ~ link_uses a l.
Proof.
  pose (k2 := mkSecKey "a" 1 0 false).
  exists (run (ops0 ++ [AddSector (mkSector k2 CANDIDATE)]) empty_topo), "a-1-0-DN", "b-0-0-DN", lab.
  split; [|split].
  - exists (ops0 ++ [AddSector (mkSector k2 CANDIDATE)]). split; [|reflexivity].
    apply Forall_app. split; [apply ops0_ok|repeat constructor].
  - vm_compute. reflexivity.
  - intros (a & b & E & H). inversion E; subst. vm_compute in H. intuition discriminate.
Qed.
Print Assumptions C04_get_link_by_sector_ids_refuted.

(** C05. *)
Theorem C05_successors_exact : forall t i, reachable t -> site_stored t i ->
  lists_exactly (get_successor_sites t i) (successor t i false).
Proof. exact successors_exact. Qed.
Print Assumptions C05_successors_exact.
Theorem C05_predecessors_exact : forall t i, reachable t -> site_stored t i ->
  lists_exactly (get_predecessor_sites t i) (predecessor t i false).
Proof. exact predecessors_exact. Qed.
Print Assumptions C05_predecessors_exact.
Theorem C05_wireless_successors_exact : forall t i, reachable t -> site_stored t i ->
  lists_exactly (get_wireless_successor_sites t i) (successor t i true).
Proof. exact wireless_successors_exact. Qed.
Print Assumptions C05_wireless_successors_exact.
(** Proved only where every link has a reverse link of the same kind. *)
Theorem C05_wireless_predecessors_exact_partial : forall t i, reachable t -> site_stored t i -> links_symmetric t ->
  lists_exactly (get_wireless_predecessor_sites t i) (predecessor t i true).
Proof. exact wireless_predecessors_symmetric. Qed.
Print Assumptions C05_wireless_predecessors_exact_partial.
Example C05_symmetric_example : let t := snd (remove_link "b-c" t0) in
  links_symmetric t /\ map fst (t_links t) = ["a-b"; "b-a"].
Proof.
  split; [|vm_compute; reflexivity]. intros k l El. unfold link_stored in *.
  apply dget_In in El. vm_compute in El. destruct El as [E|[E|[]]]; inversion E; subst.
  - exists "b-a", lba. vm_compute. auto.
  - exists "a-b", lab. vm_compute. auto.
Qed.
Theorem C05_wireless_predecessors_refuted : exists t i s, reachable t /\ site_stored t i /\
  predecessor t i true s /\ get_wireless_predecessor_sites t i = Ok [].
Proof.
  exists t0, "c", sb. split; [exact t0_reachable|]. split; [vm_compute; eauto|]. split.
  - exists "b-c", lbc. vm_compute. auto.
  - vm_compute. reflexivity.
Qed.
Print Assumptions C05_wireless_predecessors_refuted.

(** C43: sorting changes no content, orders by id and does not depend on insertion order. *)
Theorem C43_sort_keeps_content_and_orders : forall t, reachable t ->
  same_content (t_sites (sort_topo t)) (t_sites t) /\ same_content (t_sectors (sort_topo t)) (t_sectors t) /\
  same_content (t_links (sort_topo t)) (t_links t) /\
  (forall i, match dget (t_demands (sort_topo t)) i, dget (t_demands t) i with
             | Some d', Some d => d_id d' = d_id d /\ Permutation (d_sites d') (d_sites d)
             | None, None => True | _, _ => False end) /\
  StronglySorted (fun p q => str_ltb (fst q) (fst p) = false) (t_sites (sort_topo t)) /\
  StronglySorted (fun p q => str_ltb (fst q) (fst p) = false) (t_links (sort_topo t)).
Proof. exact sort_topo_content. Qed.
Print Assumptions C43_sort_keeps_content_and_orders.
Theorem C43_sort_independent_of_insertion_order : forall t t', reachable t -> reachable t' ->
  same_content (t_sites t) (t_sites t') -> same_content (t_sectors t) (t_sectors t') ->
  same_content (t_links t) (t_links t') ->
  t_sites (sort_topo t) = t_sites (sort_topo t') /\ t_sectors (sort_topo t) = t_sectors (sort_topo t') /\
  t_links (sort_topo t) = t_links (sort_topo t').
Proof. exact sort_topo_canonical. Qed.
Print Assumptions C43_sort_independent_of_insertion_order.
Example C43_example : let t := run [AddSite sc; AddSite sa; AddSite sb] empty_topo in
  map fst (t_sites t) = ["c"; "a"; "b"] /\ map fst (t_sites (sort_topo t)) = ["a"; "b"; "c"].
Proof. vm_compute. auto. Qed.

(** C44: removing a sector. *)
Theorem C44_remove_sector_exact : forall t i, reachable t ->
  ((exists x, sector_stored t i x) <-> fst (remove_sector i t) = Ok tt) /\
  forall t', remove_sector i t = (Ok tt, t') ->
   t_sites t' = t_sites t /\ t_demands t' = t_demands t /\
   (forall k x, sector_stored t' k x <-> sector_stored t k x /\ k <> i) /\
   (forall k l', link_stored t' k l' <->
      exists l, link_stored t k l /\ ((~ link_uses i l /\ l' = l) \/ (link_uses i l /\ l' = clear_sectors l))) /\
   (forall k l', link_stored t' k l' -> ~ link_uses i l').
Proof. exact remove_sector_exact. Qed.
Print Assumptions C44_remove_sector_exact.
Theorem C44_sector_ids_identify_sectors : forall a b, no_dash (k_site a) -> no_dash (k_site b) ->
  key_id a = key_id b -> a = b.
Proof. exact key_id_inj. Qed.
Print Assumptions C44_sector_ids_identify_sectors.
Example C44_example : map (fun p => l_sectors (snd p)) (t_links (snd (remove_sector "a-0-0-DN" t0))) = [None; None; None]
  /\ l_sectors lab <> None.
Proof. vm_compute. split; [reflexivity|discriminate]. Qed.

(** C45: queries. *)
Theorem C45_get_site_ids_exact : forall t sf tf, reachable t ->
  NoDup (get_site_ids t sf tf) /\
  forall i, In i (get_site_ids t sf tf) <->
    exists s, dget (t_sites t) i = Some s /\ passes sf (s_status s) /\ passes tf (s_type s).
Proof. exact get_site_ids_exact. Qed.
Print Assumptions C45_get_site_ids_exact.
Theorem C45_get_link_pairs_exact : forall t sf tf a b, reachable t ->
  (In (a, b) (get_link_site_id_pairs t sf tf) <->
   exists k l, link_stored t k l /\ l_tx l = a /\ l_rx l = b /\ passes sf (l_status l) /\ passes tf (l_type l)).
Proof. exact get_link_pairs_exact. Qed.
Print Assumptions C45_get_link_pairs_exact.
Theorem C45_get_sectorless_links_exact : forall t a b, reachable t ->
  (In (a, b) (get_sectorless_links t) <->
   exists k l, link_stored t k l /\ l_tx l = a /\ l_rx l = b /\ l_wireless l = true /\ l_sectors l = None).
Proof. exact get_sectorless_exact. Qed.
Print Assumptions C45_get_sectorless_links_exact.
Theorem C45_colocated_groups_partition : forall t c, reachable t ->
  (forall i, (exists g, dget (get_colocated_sites t) c = Some g /\ In i g) <->
             exists s, dget (t_sites t) i = Some s /\ s_loc s = c) /\
  (forall g, dget (get_colocated_sites t) c = Some g -> g <> [] /\ NoDup g).
Proof. exact colocated_exact. Qed.
Print Assumptions C45_colocated_groups_partition.
Theorem C45_get_sector_ids_exact : forall t sf s k, reachable t ->
  (listed_in (get_sector_ids t sf) s k <-> exists x, sector_stored t k x /\ x_site x = s /\ In (x_status x) sf).
Proof. exact get_sector_ids_exact. Qed.
Print Assumptions C45_get_sector_ids_exact.
Theorem C45_get_site_polarities_exact : forall t p i, reachable t ->
  (In i (get_site_polarities t p) <->
   exists s, dget (t_sites t) i = Some s /\ active (s_status s) = true /\ s_type s <> CN /\ s_polarity s = p).
Proof. exact get_site_polarities_exact. Qed.
Print Assumptions C45_get_site_polarities_exact.
Theorem C45_sector_connectivity_exact : forall t a b k, reachable t ->
  (edge_in (sector_connectivity t) a b k <-> exists l, link_stored t k l /\ joins l a b) /\
  (edge_in (sector_connectivity_reverse t) b a k <-> exists l, link_stored t k l /\ joins l a b).
Proof. exact sector_connectivity_exact. Qed.
Print Assumptions C45_sector_connectivity_exact.
Example C45_example : get_site_ids t0 None (Some [POP; DN]) = ["a"; "b"] /\
  get_sectorless_links t0 = [("b", "c")] /\ map snd (get_colocated_sites t0) = [["a"]; ["b"]; ["c"]].
Proof. vm_compute. auto. Qed.
